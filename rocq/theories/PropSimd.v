(* C91: which instructions the counter-based generators use. *)
From Verif Require Import Word Arr LaneCtr Aes AesPy Speck ChaCha Py Simd PropLane PropChaCha.
From Coq Require Import ZifyBool ZifyNat ZifyN.
Open Scope N_scope.
Ltac Zify.zify_post_hook ::= idtac.

Definition cpu_ok (c : cpu) : Prop := c_leaf c < 2 ^ 31 /\ forall m, feature_reg c m < 2 ^ 32.
Definition b2z (b : bool) : Z := if b then 1%Z else 0%Z.

Lemma land1 z : Z.land z 1 = b2z (Z.odd z).
Proof.
  change 1%Z with (Z.ones 1) at 1. rewrite (Z.land_ones z 1) by lia. change (2 ^ 1)%Z with 2%Z. rewrite Zmod_odd. reflexivity.
Qed.
Lemma signed_bit x i : x < 2 ^ 32 -> i < 32 -> Z.testbit (reg_signed x) (Z.of_N i) = N.testbit x i.
Proof.
  intros Hx Hi. unfold reg_signed. destruct (N.ltb_spec x (2 ^ 31)) as [_|_].
  - rewrite Z.testbit_of_N. reflexivity.
  - rewrite <- (Z.mod_pow2_bits_low _ 32) by lia.
    replace ((Z.of_N x - 2 ^ 32) mod 2 ^ 32)%Z with (Z.of_N x); [now rewrite Z.testbit_of_N|].
    apply Z.mod_unique with (q := (-1)%Z); [left; split; [lia | apply N2Z.inj_lt in Hx; exact Hx] | lia].
Qed.
Lemma flag_at b c m i : cpu_ok c -> (i < 32)%nat ->
  nth i (feature_flags b c m) 0%Z = b2z (b_cpuid b && (1 <=? c_leaf c) && N.testbit (feature_reg c m) (N.of_nat i)).
Proof.
  intros [Hl Hr] Hi. unfold feature_flags.
  set (known := b_cpuid b && _).
  assert (K : known = b_cpuid b && (1 <=? c_leaf c)).
  { unfold known. f_equal. unfold reg_signed. rewrite (proj2 (N.ltb_lt _ _) Hl). destruct (b_msc b); lia. }
  rewrite <- K. clearbody known. clear K Hl.
  set (reg := if known then _ else _).
  assert (R : reg < 2 ^ 32) by (unfold reg; destruct known; [apply Hr | reflexivity]).
  assert (E : known && N.testbit (feature_reg c m) (N.of_nat i) = N.testbit reg (N.of_nat i)).
  { unfold reg. destruct known; [reflexivity|]. now rewrite N.bits_0. }
  rewrite E. clearbody reg.
  rewrite (nth_indep _ 0%Z (if b_msc b then Z.land (Z.shiftr (reg_signed reg) (Z.of_nat 0)) 1 else Z.of_N (N.land (N.shiftr reg (N.of_nat 0)) 1)))
    by (rewrite map_length, seq_length; exact Hi).
  rewrite (map_nth (fun i => if b_msc b then Z.land (Z.shiftr (reg_signed reg) (Z.of_nat i)) 1 else Z.of_N (N.land (N.shiftr reg (N.of_nat i)) 1)) (seq 0 32) 0%nat i).
  rewrite seq_nth by exact Hi. cbn [plus].
  destruct (b_msc b).
  - rewrite land1. rewrite <- Z.bit0_odd, Z.shiftr_spec by lia.
    replace (0 + Z.of_nat i)%Z with (Z.of_N (N.of_nat i)) by lia. rewrite signed_bit by (exact R || lia). reflexivity.
  - change 1 with (N.ones 1). rewrite N.land_ones, N.shiftr_div_pow2. change (2 ^ 1) with 2. rewrite <- N.testbit_spec'.
    now destruct (N.testbit reg (N.of_nat i)).
Qed.

(* feature_flags gives the bits of the CPUID register, for every compiler *)
Theorem C91_feature_bits :
  forall b c m i, cpu_ok c -> (i < 32)%nat ->
  List.length (feature_flags b c m) = 32%nat /\
  nth i (feature_flags b c m) 0%Z = b2z (b_cpuid b && (1 <=? c_leaf c) && N.testbit (feature_reg c m) (N.of_nat i)).
Proof. intros b c m i H Hi. split; [unfold feature_flags; now rewrite map_length, seq_length | now apply flag_at]. Qed.

(* a processor has the instructions of f for the code of this build *)
Definition compiled (b : build) (f : fam) : bool := match f with FAes => b_aes b | FSpeck => b_ssse3 b | FChaCha => b_sse2 b end.
Definition cpu_has (b : build) (c : cpu) (f : fam) : bool :=
  match f with
  | FAes => N.testbit (c_ecx c) 25 | FSpeck => N.testbit (c_ecx c) 19
  | FChaCha => if b_ssse3 b then N.testbit (c_ecx c) 9 else N.testbit (c_edx c) 26 end.
Definition usable (b : build) (c : cpu) (f : fam) : bool := compiled b f && (b_cpuid b && (1 <=? c_leaf c) && cpu_has b c f).

Lemma capable_eq b c f : cpu_ok c -> capable b c f = b2z (usable b c f).
Proof.
  intros H. unfold capable, usable, compiled, cpu_has. destruct f.
  - destruct (b_aes b); [|reflexivity]. rewrite (flag_at b c 2 25) by (exact H || lia). reflexivity.
  - destruct (b_ssse3 b); [|reflexivity]. rewrite (flag_at b c 2 19) by (exact H || lia). reflexivity.
  - destruct (b_sse2 b); [|reflexivity]. destruct (b_ssse3 b).
    + rewrite (flag_at b c 2 9) by (exact H || lia). reflexivity.
    + rewrite (flag_at b c 3 26) by (exact H || lia). reflexivity.
Qed.
Theorem C91_capable : forall b c f, cpu_ok c -> capable b c f = b2z (usable b c f).
Proof. exact capable_eq. Qed.
Theorem C91_rdrand_capable :
  forall b c, cpu_ok c -> rdrand_capable b c = b2z (b_rdrnd b && (b_cpuid b && (1 <=? c_leaf c) && N.testbit (c_ecx c) 30)).
Proof. intros b c H. unfold rdrand_capable. destruct (b_rdrnd b); [|reflexivity]. rewrite (flag_at b c 2 30) by (exact H || lia). reflexivity. Qed.

(* a value that is false is 0, or int() refuses it: true of every number, None and string *)
Definition sv_ok (v : sval) : Prop := sv_truth v = Ok false -> sv_int v = Ok 0%Z \/ exists e, sv_int v = Raise e.
Lemma sv_values_ok t z n d : sv_ok (sv_bool t) /\ sv_ok (sv_z z) /\ sv_ok (sv_rat n d) /\ sv_ok sv_none.
Proof.
  unfold sv_ok, sv_bool, sv_z, sv_rat, sv_none; cbn [sv_truth sv_int]. repeat split; intros H.
  - injection H as ->. now left.
  - injection H as H. left. f_equal. lia.
  - injection H as H. left. f_equal. assert (n = 0%Z) by lia. subst n. apply Z.quot_0_l. discriminate.
  - right. now exists TypeError.
Qed.
Definition ev_ok (e : ev) : Prop := match e with Seed _ => True | Assign _ v => sv_ok v end.

Lemma get_set_same f v g : get_sw f (set_sw f v g) = v.
Proof. now destruct f. Qed.
Lemma get_set_other f f' v g : f <> f' -> get_sw f (set_sw f' v g) = get_sw f g.
Proof. intros D. destruct f, f'; try reflexivity; now elim D. Qed.

(* the invariant: a switch is not 0 only where its instructions can be used *)
Definition sw_inv (b : build) (c : cpu) (g : switches) : Prop := forall f, usable b c f = false -> get_sw f g = 0%Z.
Lemma fam_dec (f f' : fam) : {f = f'} + {f <> f'}.
Proof. decide equality. Qed.
Lemma set_inv b c f v g : sw_inv b c g -> (usable b c f = false -> v = 0%Z) -> sw_inv b c (set_sw f v g).
Proof.
  intros Hg Hv f' U. destruct (fam_dec f' f) as [->|D].
  - rewrite get_set_same. now apply Hv.
  - rewrite get_set_other by exact D. now apply Hg.
Qed.
Lemma step_inv b c e g : cpu_ok c -> ev_ok e -> sw_inv b c g -> sw_inv b c (fst (sw_step b c e g)).
Proof.
  intros Hc He Hg. destruct e as [f | f v]; cbn [sw_step].
  - rewrite capable_eq by exact Hc. cbn [fst]. apply set_inv; [exact Hg | now intros ->].
  - rewrite capable_eq by exact Hc.
    assert (H1 : sw_inv b c (set_sw f (b2z (usable b c f)) g)) by (apply set_inv; [exact Hg | now intros ->]).
    cbn [ev_ok] in He. unfold sv_ok in He.
    destruct (sv_truth v) as [t|x]; [|exact H1].
    destruct (t && (b2z (usable b c f) =? 0)%Z) eqn:T; [exact H1|].
    assert (Ht : usable b c f = false -> t = false) by (intros U; rewrite U in T; now destruct t).
    destruct f; cbn [fst]; try (apply set_inv; [exact H1 | intros U; now rewrite (Ht U)]).
    destruct (sv_int v) as [z|x] eqn:I; cbn [obind]; [|exact H1].
    destruct (to_cint (PInt z)) as [z'|x] eqn:Z'; cbn [fst]; [|exact H1].
    apply set_inv; [exact H1|]. intros U. pose proof (Ht U) as ->.
    destruct (He eq_refl) as [E | [x E]]; [|discriminate E]. injection E as ->.
    cbv in Z'. now injection Z' as <-.
Qed.
Lemma run_inv b c l : cpu_ok c -> Forall ev_ok l -> forall g, sw_inv b c g -> sw_inv b c (sw_run b c l g).
Proof.
  intros Hc Hl. unfold sw_run. induction Hl as [|e l He Hl IH]; intros g Hg; [exact Hg|].
  cbn [fold_left]. apply IH. now apply step_inv.
Qed.
Lemma sw0_inv b c : sw_inv b c sw0.
Proof. intros f _. now destruct f. Qed.
Lemma code_of_inv b c f g : sw_inv b c g -> block_code b f g = Portable \/ (block_code b f g = Instr /\ usable b c f = true).
Proof.
  intros Hg. specialize (Hg f). destruct (usable b c f) eqn:U.
  - unfold usable in U. apply andb_prop in U as [U _]. unfold block_code. destruct f; cbn [compiled] in U; rewrite U; cbn [andb].
    + destruct (g_aes g =? 0)%Z; [now left | now right].
    + destruct (g_sse41 g =? 1)%Z; [now right | now left].
    + destruct (0 <? g_simd g)%Z; [now right | now left].
  - specialize (Hg eq_refl). left. unfold block_code. destruct f; cbn [get_sw] in Hg; rewrite Hg; [reflexivity | |]; now rewrite Bool.andb_false_r.
Qed.

(* Whatever objects are made, seeded, jumped and whatever is assigned to their properties, in any
   order: special instructions are executed only in a build that has them on a processor that
   announces them, and the empty branch of AESCounter is never taken. *)
Theorem C91_no_unsupported_instruction :
  forall b c l f, cpu_ok c -> Forall ev_ok l ->
  block_code b f (sw_run b c l sw0) = Portable \/ (block_code b f (sw_run b c l sw0) = Instr /\ usable b c f = true).
Proof. intros b c l f Hc Hl. apply code_of_inv. apply run_inv; [exact Hc | exact Hl | apply sw0_inv]. Qed.

(* seeding turns the instructions on exactly where they can be used *)
Theorem C91_seed_uses_them :
  forall b c f g, cpu_ok c -> block_code b f (fst (sw_step b c (Seed f) g)) = if usable b c f then Instr else Portable.
Proof.
  intros b c f g Hc. cbn [sw_step fst]. rewrite capable_eq by exact Hc. unfold block_code, usable.
  destruct f; cbn [set_sw g_aes g_sse41 g_simd compiled].
  - destruct (b_aes b); [|reflexivity]. cbn [andb]. now destruct (b_cpuid b && (1 <=? c_leaf c) && cpu_has b c FAes).
  - destruct (b_ssse3 b); [|reflexivity]. cbn [andb]. now destruct (b_cpuid b && (1 <=? c_leaf c) && cpu_has b c FSpeck).
  - destruct (b_sse2 b); [|reflexivity]. cbn [andb]. now destruct (b_cpuid b && (1 <=? c_leaf c) && cpu_has b c FChaCha).
Qed.

(* assigning True or False: refused only for True where the instructions cannot be used; otherwise
   the property reads back what was assigned and the next block is made as asked. The other two
   switches are untouched. *)
Theorem C91_assign_bool :
  forall b c f g t g' r, cpu_ok c -> sw_step b c (Assign f (sv_bool t)) g = (g', r) ->
  (if t && negb (usable b c f) then r = Raise ValueError /\ sw_read f g' = 0%Z /\ block_code b f g' = Portable
   else r = Ok tt /\ sw_read f g' = b2z t /\ block_code b f g' = if t then Instr else Portable) /\
  (forall f', f' <> f -> get_sw f' g' = get_sw f' g).
Proof.
  intros b c f g t g' r Hc E. cbn [sw_step sv_bool sv_truth sv_int] in E. rewrite capable_eq in E by exact Hc.
  destruct (usable b c f) eqn:U.
  - cbn [negb]. rewrite Bool.andb_false_r.
    unfold usable in U. apply andb_prop in U as [U _].
    destruct f; destruct t; cbn in E; injection E as <- <-; cbn [compiled] in U; unfold block_code; rewrite ?U;
      (split; [split; [reflexivity|]; split; reflexivity | intros f' D; destruct f'; try reflexivity; now elim D]).
  - cbn [negb]. rewrite Bool.andb_true_r.
    destruct f; destruct t; cbn in E; injection E as <- <-; unfold block_code; rewrite ?Bool.andb_false_r; cbn [andb];
      (split; [split; [reflexivity|]; split; cbn; rewrite ?Bool.andb_false_r; reflexivity | intros f' D; destruct f'; try reflexivity; now elim D]).
Qed.

(* the numbers do not depend on the history of the switches *)
Lemma codes_len b c f l : forall g, List.length (codes b c f l g) = List.length (filter (fun o => match o with None => true | _ => false end) l).
Proof. induction l as [|[e|] l IH]; intros g; cbn [codes filter List.length]; [reflexivity | apply IH | now rewrite IH]. Qed.
Definition evs (l : list (option ev)) : Prop := Forall (fun o => match o with Some e => ev_ok e | None => True end) l.
Lemma codes_ok b c f l : cpu_ok c -> evs l -> forall g, sw_inv b c g -> Forall (fun k => k = Portable \/ k = Instr) (codes b c f l g).
Proof.
  intros Hc. induction l as [|[e|] l IH]; intros Hl g Hg; cbn [codes]; [constructor | |]; apply Forall_inv in Hl as He; apply Forall_inv_tail in Hl.
  - apply IH; [exact Hl | now apply step_inv].
  - constructor; [|now apply IH]. destruct (code_of_inv b c f g Hg) as [->|[-> _]]; auto.
Qed.
Definition draws_in (l : list (option ev)) : nat := List.length (filter (fun o => match o with None => true | _ => false end) l).

Theorem C91_speck_stream :
  forall b c l g s, sp_inv s -> twin (l_key s) -> speck_by (codes b c FSpeck l g) s = sp_draws (draws_in l) s.
Proof. intros b c l g s Hi Ht. unfold speck_by. rewrite C36_speck_sse_is_scalar by assumption. now rewrite map_length, codes_len. Qed.
Theorem C91_chacha_stream :
  forall b c l l' g g' p q key ctr bg, ctr < 2 ^ 128 -> draws_in l = draws_in l' ->
  option_map snd (chacha_by b (codes b c FChaCha l g) (cc_seed p key ctr bg)) = option_map snd (chacha_by b (codes b c FChaCha l' g') (cc_seed q key ctr bg)).
Proof. intros b c l l' g g' p q key ctr bg Hc L. unfold chacha_by. apply C53_chacha_simd_same_stream; [exact Hc|]. now rewrite !map_length, !codes_len. Qed.
Lemma inv_pwf s : aes_inv s -> Forall pwf (l_ctr s).
Proof.
  intros (_ & _ & -> & _). apply Forall_forall. intros p Hp. apply in_map_iff in Hp as (j & <- & _). apply psplit_wf.
Qed.
Lemma aes_by_eq ks : Forall (fun k => k = Portable \/ k = Instr) ks -> forall s, aes_inv s -> aes_by ks s = aes_draws (List.length ks) s.
Proof.
  intros H. induction H as [|k ks Hk H IH]; intros s Hi; [reflexivity|]. cbn [aes_by List.length].
  unfold aes_draws. cbn [ldraws]. fold (aes_draws (List.length ks)). fold aes_next.
  replace (match k with Portable => aes_next s | Instr => ni_next s | Nothing => None end) with (aes_next s).
  2:{ destruct Hk as [->| ->]; [reflexivity|]. symmetry. apply C51_aes_ni_next. now apply inv_pwf. }
  destruct (aes_next_spec s Hi) as (s1 & E & I1 & _). rewrite E. now rewrite (IH s1 I1).
Qed.
Theorem C91_aes_stream :
  forall b c l s, cpu_ok c -> evs l -> aes_inv s -> aes_by (codes b c FAes l sw0) s = aes_draws (draws_in l) s.
Proof.
  intros b c l s Hc Hl Hi. rewrite aes_by_eq by (exact Hi || (apply (codes_ok b c FAes l Hc Hl); apply sw0_inv)). now rewrite codes_len.
Qed.

(* -- what does not hold -- *)
(* a processor and a build with everything *)
Definition pc : cpu := Cpu 22 0 0 (2 ^ 32 - 1) (2 ^ 32 - 1).
Definition pcb : build := Build true false true true true true.
Definition old : cpu := Cpu 1 0 0 0 0.
Lemma pc_ok : cpu_ok pc.
Proof.
  split; [reflexivity|]. intros m. unfold feature_reg. destruct m as [|[[p|p|]|[p|p|]|]]; reflexivity.
Qed.
Example C91_case :
  cpu_ok pc /\ Forall ev_ok [Seed FAes; Assign FSpeck (sv_z 7); Assign FChaCha sv_none] /\
  map (usable pcb pc) [FAes; FSpeck; FChaCha] = [true; true; true] /\ map (usable pcb old) [FAes; FSpeck; FChaCha] = [false; false; false] /\
  codes pcb pc FAes [Some (Seed FAes); None; Some (Assign FAes (sv_bool false)); None; Some (Assign FAes (sv_bool true)); None] sw0 = [Instr; Portable; Instr] /\
  snd (sw_step pcb old (Assign FChaCha (sv_bool true)) sw0) = Raise ValueError /\
  snd (sw_step pcb old (Assign FChaCha sv_none) sw0) = Ok tt /\ snd (sw_step pcb old (Assign FSpeck sv_none) sw0) = Raise TypeError.
Proof.
  split; [exact pc_ok|]. split.
  { constructor; [exact I|]. constructor; [exact (proj1 (proj2 (sv_values_ok true 7 0 1)))|]. constructor; [exact (proj2 (proj2 (proj2 (sv_values_ok true 7 0 1))))|constructor]. }
  vm_compute. repeat split.
Qed.

(* The switch belongs to the class, not to the object (the documentation: "Toggle use of ..."): an
   assignment to one object changes the other ones, and it is undone as soon as any object of the
   class is made, seeded or jumped. *)
Theorem C91_switch_kept_refuted :
  exists b c f, cpu_ok c /\
  let g := sw_run b c [Seed f; Assign f (sv_bool false)] sw0 in
  sw_read f g = 0%Z /\ block_code b f g = Portable /\
  let g' := sw_run b c [Seed f] g in sw_read f g' = 1%Z /\ block_code b f g' = Instr.
Proof. exists pcb, pc, FAes. split; [exact pc_ok|]. vm_compute. repeat split. Qed.

(* use_sse41 stores int(value), and SPECK128 uses the instructions only when it is 1: 2 is read back
   as True but the portable code runs; 1/2 is true and turns the instructions off *)
Theorem C91_sse41_truth_refuted :
  exists b c, cpu_ok c /\ usable b c FSpeck = true /\
  (forall z, (- 2 ^ 31 <= z < 2 ^ 31)%Z -> z <> 0%Z -> z <> 1%Z ->
     let (g, r) := sw_step b c (Assign FSpeck (sv_z z)) sw0 in r = Ok tt /\ sw_read FSpeck g = 1%Z /\ block_code b FSpeck g = Portable) /\
  (let (g, r) := sw_step b c (Assign FSpeck (sv_rat 1 2)) sw0 in r = Ok tt /\ sw_read FSpeck g = 0%Z /\ block_code b FSpeck g = Portable).
Proof.
  exists pcb, pc. split; [exact pc_ok|]. split; [reflexivity|]. split; [|vm_compute; repeat split].
  intros z Hz H0 H1. cbn [sw_step sv_z sv_truth sv_int]. rewrite capable_eq by exact pc_ok. change (usable pcb pc FSpeck) with true.
  cbn [b2z Z.eqb]. rewrite Bool.andb_false_r. cbn [obind].
  assert (E : to_cint (PInt z) = Ok z).
  { unfold to_cint. replace ((- 2 ^ 31 <=? z) && (z <? 2 ^ 31))%Z with true by lia. reflexivity. }
  rewrite E. split; [reflexivity|]. unfold sw_read, block_code. cbn [set_sw g_sse41]. change (b_ssse3 pcb) with true. cbn [andb].
  now rewrite (proj2 (Z.eqb_neq z 0) H0), (proj2 (Z.eqb_neq z 1) H1).
Qed.

(* an assignment that raises still changes the switch: None turns the instructions on *)
Theorem C91_failed_assignment_refuted :
  exists b c g, cpu_ok c /\ sw_read FSpeck g = 0%Z /\
  let (g', r) := sw_step b c (Assign FSpeck sv_none) g in r = Raise TypeError /\ sw_read FSpeck g' = 1%Z /\ block_code b FSpeck g' = Instr.
Proof. exists pcb, pc, sw0. split; [exact pc_ok|]. vm_compute. repeat split. Qed.

(* without sv_ok (a class of the caller whose false object has int() 1) SPECK128 executes
   instructions the processor does not have *)
Theorem C91_sv_ok_needed :
  exists b c v, cpu_ok c /\ usable b c FSpeck = false /\ block_code b FSpeck (sw_run b c [Assign FSpeck v] sw0) = Instr.
Proof.
  exists pcb, old, (SV (Ok false) (Ok 1%Z)). split; [|vm_compute; repeat split].
  split; [reflexivity|]. intros m. unfold feature_reg. destruct m as [|[[p|p|]|[p|p|]|]]; reflexivity.
Qed.

Print Assumptions C91_feature_bits.
Print Assumptions C91_capable.
Print Assumptions C91_rdrand_capable.
Print Assumptions C91_no_unsupported_instruction.
Print Assumptions C91_seed_uses_them.
Print Assumptions C91_assign_bool.
Print Assumptions C91_speck_stream.
Print Assumptions C91_chacha_stream.
Print Assumptions C91_aes_stream.
Print Assumptions C91_switch_kept_refuted.
Print Assumptions C91_sse41_truth_refuted.
Print Assumptions C91_failed_assignment_refuted.
Print Assumptions C91_sv_ok_needed.
