(* Romu: model of src/romu/romu.h, src/romu/romu.c and romu.pyx *)
From Verif Require Import Word Arr Buffer32 Py Half.
From Coq Require Import String Ascii ZifyBool ZifyNat ZifyN.
Open Scope N_scope.

(* romu.h:33-40 without has_uint32, uinteger *)
Record romu := Romu { rm_w : N; rm_x : N; rm_y : N; rm_z : N }.
Definition ROMU_MULT : N := 15241094284759029579.
(* romu.h:50-58 *)
Definition romu_quad (s : romu) : romu * N :=
  (Romu (wmul 64 ROMU_MULT (rm_z s)) (wadd 64 (rm_z s) (rotl 64 (rm_w s) 52)) (wsub 64 (rm_y s) (rm_x s)) (rotl 64 (wadd 64 (rm_y s) (rm_w s)) 19), rm_x s).
(* romu.h:60-68 *)
Definition romu_trio (s : romu) : romu * N :=
  (Romu (rm_w s) (wmul 64 ROMU_MULT (rm_z s)) (rotl 64 (wsub 64 (rm_y s) (rm_x s)) 12) (rotl 64 (wsub 64 (rm_z s) (rm_y s)) 44), rm_x s).
Definition romu_next (quad : bool) : romu -> romu * N := if quad then romu_quad else romu_trio.

(* The object: the state struct, the attribute variant (true: "quad") and the
   variant the function pointers of _bitgen were last set up for *)
Record romuc := RC { rc_s : romu; rc_variant : bool; rc_fn : bool }.
Notation romupy := (buffered romuc).
(* next_raw = next_uint64, and next_uint32: romu.pyx:102-112 *)
Definition rc_next (c : romuc) : romuc * N :=
  let '(s, v) := romu_next (rc_fn c) (rc_s c) in (RC s (rc_variant c) (rc_fn c), v).
(* romu.c:8-21 *)
Definition romu_seed (quad : bool) (w x y z : N) : romu := N.iter 10 (cstep (romu_next quad)) (Romu w x y z).
(* romu.pyx:125-135; the four words of the seed sequence *)
Definition romu_seed_from (w x y z : N) (b : romupy) : romupy :=
  let q := rc_variant (core b) in
  let z := if (w =? 0) && (x =? 0) && (y =? 0) && (z =? 0) then N.lor z 1 else z in
  Buf (RC (romu_seed q w x y z) q q) false 0.

(* str.lower() on ASCII characters. Strings with other characters whose lower
   case is "quad" or "trio" do not exist (no non-ASCII character lowers to one of
   these letters). *)
Definition lower (c : ascii) : ascii :=
  let n := N_of_ascii c in if (65 <=? n) && (n <=? 90) then ascii_of_N (n + 32) else c.
Fixpoint slower (s : string) : string := match s with EmptyString => EmptyString | String c s => String (lower c) (slower s) end.
(* romu.pyx:114-119; true: quad *)
Definition check_variant (v : pyval) : outcome bool :=
  match v with
  | PStr s => if String.eqb (slower s) "quad" then Ok true else if String.eqb (slower s) "trio" then Ok false else Raise ValueError
  | _ => Raise TypeError
  end.
Definition variant_name (q : bool) : string := if q then "quad" else "trio".
(* romu.pyx:160-179 *)
Definition romu_get (b : romupy) : pyval :=
  let s := rc_s (core b) in
  PDict [("bit_generator", PStr "randomgen.romu.Romu");
         ("state", PDict [("w", PInt (Z.of_N (rm_w s))); ("x", PInt (Z.of_N (rm_x s))); ("y", PInt (Z.of_N (rm_y s))); ("z", PInt (Z.of_N (rm_z s)));
                          ("variant", PStr (variant_name (rc_variant (core b))))]);
         ("has_uint32", bool_int (has32 b));
         ("uinteger", PInt (Z.of_N (u32 b)))]%string.
(* romu.pyx:181-196 *)
Definition rc_put (w x y z : N) (c : romuc) : romuc := RC (Romu w x y z) (rc_variant c) (rc_fn c).
Definition romu_set (v : pyval) : M romupy unit := (
  lift (preamble "Romu" "randomgen.romu.Romu" v);;
  n <- lift (obind (getitem v "state") (fun st => obind (getitem st "w") (to_uint 64)));;
  modify (fun b => let s := rc_s (core b) in set_core (rc_put n (rm_x s) (rm_y s) (rm_z s) (core b)) b);;
  n <- lift (obind (getitem v "state") (fun st => obind (getitem st "x") (to_uint 64)));;
  modify (fun b => let s := rc_s (core b) in set_core (rc_put (rm_w s) n (rm_y s) (rm_z s) (core b)) b);;
  n <- lift (obind (getitem v "state") (fun st => obind (getitem st "y") (to_uint 64)));;
  modify (fun b => let s := rc_s (core b) in set_core (rc_put (rm_w s) (rm_x s) n (rm_z s) (core b)) b);;
  n <- lift (obind (getitem v "state") (fun st => obind (getitem st "z") (to_uint 64)));;
  modify (fun b => let s := rc_s (core b) in set_core (rc_put (rm_w s) (rm_x s) (rm_y s) n (core b)) b);;
  q <- lift (obind (getitem v "state") (fun st => obind (getitem st "variant") check_variant));;
  modify (fun b => set_core (RC (rc_s (core b)) q (rc_fn (core b))) b);;
  set_half v;;
  modify (fun b => set_core (RC (rc_s (core b)) (rc_variant (core b)) (rc_variant (core b))) b))%py.

(* ------------------------------------------------------------------- facts *)
Ltac Zify.zify_post_hook ::= idtac.
Definition rm_wf (s : romu) : Prop := wf 64 (rm_w s) /\ wf 64 (rm_x s) /\ wf 64 (rm_y s) /\ wf 64 (rm_z s).
(* a live object: the function pointers agree with variant *)
Definition rc_ok (c : romuc) : Prop := rm_wf (rc_s c) /\ rc_fn c = rc_variant c.
Definition rmpy_ok (b : romupy) : Prop := rc_ok (core b) /\ wf 32 (u32 b).
Lemma romu_next_ok q s : rm_wf s -> rm_wf (fst (romu_next q s)) /\ wf 64 (snd (romu_next q s)).
Proof.
  intros (A & B & C & D). destruct q; unfold romu_next, romu_quad, romu_trio, rm_wf; cbn [fst snd rm_w rm_x rm_y rm_z];
    (refine (conj (conj _ (conj _ (conj _ _))) B)); try assumption; try apply wf_wmul; try apply wf_wadd; try apply wf_wsub; apply wf_rotl; try apply wf_wsub; apply wf_wadd.
Qed.
Lemma romu_next_inj q s t : rm_wf s -> rm_wf t -> cstep (romu_next q) s = cstep (romu_next q) t -> s = t.
Proof.
  destruct s as [w x y z], t as [w' x' y' z']. intros (A & B & C & D) (A' & B' & C' & D'). cbn [rm_w rm_x rm_y rm_z] in *.
  destruct q; unfold cstep, romu_next, romu_quad, romu_trio; cbn [fst rm_w rm_x rm_y rm_z]; intros H; injection H as H1 H2 H3 H4.
  - apply odd_mul_inj in H1; [|reflexivity|assumption|assumption]. subst z'.
    apply wadd_inj_l in H2; [|now apply wf_rotl|now apply wf_rotl]. apply rotl_inj in H2; [|assumption|assumption|reflexivity|reflexivity]. subst w'.
    apply rotl_inj in H4; [|apply wf_wadd|apply wf_wadd|reflexivity|reflexivity]. apply wadd_inj_r in H4; [|assumption|assumption]. subst y'.
    apply wsub_inj_r in H3; [|assumption|assumption]. now subst.
  - subst w'. apply odd_mul_inj in H2; [|reflexivity|assumption|assumption]. subst z'.
    apply rotl_inj in H4; [|apply wf_wsub|apply wf_wsub|reflexivity|reflexivity]. apply wsub_inj_r in H4; [|assumption|assumption]. subst y'.
    apply rotl_inj in H3; [|apply wf_wsub|apply wf_wsub|reflexivity|reflexivity]. apply wsub_inj_r in H3; [|assumption|assumption]. now subst.
Qed.
Lemma romu_iter_ok q n s : rm_wf s -> rm_wf (N.iter n (cstep (romu_next q)) s).
Proof. intros H. apply Niter_inv; [|exact H]. intros x Hx. now apply romu_next_ok. Qed.
Lemma romu_iter_inj q n s t : rm_wf s -> rm_wf t -> N.iter n (cstep (romu_next q)) s = N.iter n (cstep (romu_next q)) t -> s = t.
Proof. apply (Niter_inj rm_wf); [|apply romu_next_inj]. intros x Hx. now apply romu_next_ok. Qed.
Lemma rc_next_fn c : rc_fn (cstep rc_next c) = rc_fn c.
Proof. unfold cstep, rc_next. destruct (romu_next (rc_fn c) (rc_s c)). reflexivity. Qed.
Lemma rc_next_eq c : cstep rc_next c = RC (cstep (romu_next (rc_fn c)) (rc_s c)) (rc_variant c) (rc_fn c).
Proof. unfold cstep, rc_next. destruct (romu_next (rc_fn c) (rc_s c)). reflexivity. Qed.
Lemma rc_next_wf c : rm_wf (rc_s c) -> rm_wf (rc_s (fst (rc_next c))) /\ wf 64 (snd (rc_next c)).
Proof. intros H. unfold rc_next. pose proof (romu_next_ok (rc_fn c) (rc_s c) H) as P. destruct (romu_next (rc_fn c) (rc_s c)). exact P. Qed.
Lemma rc_iter n c : N.iter n (cstep rc_next) c = RC (N.iter n (cstep (romu_next (rc_fn c))) (rc_s c)) (rc_variant c) (rc_fn c).
Proof.
  induction n as [|n IH] using N.peano_ind; [destruct c; reflexivity|]. rewrite !N.iter_succ, IH, rc_next_eq. reflexivity.
Qed.
(* all four words zero is a fixed point of both variants, x = y = z = 0 of trio *)
Definition rm_dead (q : bool) (s : romu) : Prop := (q = true -> rm_w s = 0) /\ rm_x s = 0 /\ rm_y s = 0 /\ rm_z s = 0.
Lemma rm_dead_fixed q s : rm_dead q s -> romu_next q s = (s, 0).
Proof.
  destruct s as [w x y z]. unfold rm_dead. cbn [rm_w rm_x rm_y rm_z]. intros (W & -> & -> & ->).
  destruct q; [rewrite W by reflexivity|]; reflexivity.
Qed.
Lemma rm_alive n q s : rm_wf s -> ~ rm_dead q s -> ~ rm_dead q (N.iter n (cstep (romu_next q)) s).
Proof.
  intros W H D. apply H.
  assert (N.iter n (cstep (romu_next q)) s = N.iter n (cstep (romu_next q)) (N.iter n (cstep (romu_next q)) s)) as E.
  { assert (F : forall m, N.iter m (cstep (romu_next q)) (N.iter n (cstep (romu_next q)) s) = N.iter n (cstep (romu_next q)) s).
    { induction m as [|m IH] using N.peano_ind; [reflexivity|]. rewrite N.iter_succ, IH. unfold cstep at 1. rewrite rm_dead_fixed by exact D. reflexivity. }
    now rewrite F. }
  apply romu_iter_inj in E; [|exact W|now apply romu_iter_ok]. now rewrite E.
Qed.
Lemma check_variant_name q : check_variant (PStr (variant_name q)) = Ok q.
Proof. destruct q; reflexivity. Qed.
Arguments check_variant : simpl never.
Lemma romu_set_get s t : rmpy_ok s -> romu_set (romu_get s) t = (s, Ok tt).
Proof.
  intros [[(A & B & C & D) F] U]. destruct s as [[[w x y z] q f] h u], t as [[[w' x' y' z'] q' f'] h' u']. cbn [core rc_s rc_fn rc_variant rm_w rm_x rm_y rm_z u32] in *. subst f.
  unfold romu_set, romu_get. cbn [core has32 u32 rc_s rc_variant rm_w rm_x rm_y rm_z].
  do 12 (repeat (rewrite bind_lift; cbn; rewrite ?check_variant_name, ?to_uint_ok by assumption);
    try (rewrite bind_modify; unfold set_core, rc_put; cbn [core has32 u32 rc_s rc_variant rc_fn rm_w rm_x rm_y rm_z])).
  unfold bind at 1. rewrite (set_half_run _ h u) by (try reflexivity; exact U). reflexivity.
Qed.
