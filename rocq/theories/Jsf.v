(* JSF: model of src/jsf/jsf.h, src/jsf/jsf.c and jsf.pyx *)
From Verif Require Import Word Arr Buffer32 Py Half.
From Coq Require Import String ZifyBool ZifyNat ZifyN.
Open Scope N_scope.

(* jsf.h:35-49 without has_uint32, uinteger, and the attributes size and
   seed_size of the class. a..d are unions of a uint32 and a uint64; the model
   holds the member that belongs to size. (The other half of the union stays in
   memory when size changes from 64 to 32; nothing reads it before it is
   written again, except after a state assignment that failed half way.)
   p, q, r, size and seed_size are C ints. *)
Record jsf := Jsf { js_a : N; js_b : N; js_c : N; js_d : N; js_p : Z; js_q : Z; js_r : Z; js_size : Z; js_seeds : Z }.
Notation jsfpy := (buffered jsf).
Definition js_put (a b c d : N) (s : jsf) : jsf := Jsf a b c d (js_p s) (js_q s) (js_r s) (js_size s) (js_seeds s).
(* jsf.h:53-67 rotate64, rotate32: (x << k) | (x >> (w - k)). Undefined (None)
   when a shift count is negative or not below the word size, so also for k = 0. *)
Definition rot (w : N) (x : N) (k : Z) : option N :=
  if ((0 <? k) && (k <? Z.of_N w))%Z then Some (rotl w x (Z.to_N k)) else None.
(* jsf.h:69-89 next64 (w = 64), next32 (w = 32); None: undefined *)
Definition jsf_next (w : N) (s : jsf) : option (jsf * N) :=
  match rot w (js_b s) (js_p s), rot w (js_c s) (js_q s), (if (js_r s =? 0)%Z then Some (js_d s) else rot w (js_d s) (js_r s)) with
  | Some x, Some y, Some z =>
      let e := wsub w (js_a s) x in
      let a := N.lxor (js_b s) y in
      let b := wadd w (js_c s) z in
      let c := wadd w (js_d s) e in
      let d := wadd w e a in
      Some (js_put a b c d s, d)
  | _, _, _ => None
  end.
(* the word size the class uses: jsf.pyx:214, 235, 282, 313 test size == 64 *)
Definition js_w (s : jsf) : N := if (js_size s =? 64)%Z then 64 else 32.
(* next_raw: jsf64_uint64 or jsf32_raw (jsf.pyx:214-223, 59-60, 77-78) *)
Definition jsf_raw (b : jsfpy) : option (jsfpy * N) :=
  match jsf_next (js_w (core b)) (core b) with Some (s, v) => Some (set_core s b, v) | None => None end.
(* next_uint32: jsf64_next32 (buffered) or jsf32_next32, jsf.h:94-104, 111-113 *)
Definition jsf_next32 (b : jsfpy) : option (jsfpy * N) :=
  if (js_size (core b) =? 64)%Z then
    if has32 b then Some (Buf (core b) false (u32 b), u32 b)
    else match jsf_next 64 (core b) with
         | Some (s, v) => Some (Buf s true (trunc 32 (N.shiftr v 32)), N.land v 0xffffffff)
         | None => None
         end
  else jsf_raw b.
(* next_uint64: jsf64_next64 or jsf32_next64 (jsf.h:108-110; two calls in one
   expression; lr: the left one, which gives the high half, is made first) *)
Definition jsf_next64 (lr : bool) (b : jsfpy) : option (jsfpy * N) :=
  if (js_size (core b) =? 64)%Z then jsf_raw b
  else match jsf_raw b with
       | None => None
       | Some (b1, u) =>
           match jsf_raw b1 with
           | None => None
           | Some (b2, v) => Some (b2, if lr then N.lor (wshl 64 u 32) v else N.lor (wshl 64 v 32) u)
           end
       end.
(* n draws *)
Definition jsf_draws (n : N) (b : jsfpy) : option jsfpy :=
  N.iter n (fun o => match o with Some b => match jsf_raw b with Some (b, _) => Some b | None => None end | None => None end) (Some b).
(* jsf.c:10-34 jsf64_seed, jsf32_seed: seed[0..2], of which the first "size"
   are used *)
Definition jsf_start (s0 s1 s2 : N) (s : jsf) : jsf :=
  js_put 0xf1ea5eed s0 (if (1 <? js_seeds s)%Z then s1 else s0) (if (2 <? js_seeds s)%Z then s2 else s0) s.
(* jsf.pyx:232-243 (the words come from the seed sequence, of the word size) *)
Definition jsf_seed (s0 s1 s2 : N) (b : jsfpy) : option jsfpy :=
  match jsf_draws 20 (set_core (jsf_start s0 s1 s2 (core b)) b) with
  | Some b => Some (reset32 b)
  | None => None
  end.

(* jsf.pyx:11-12, 224-226 *)
Definition jsf_default (size : Z) (k : nat) : option Z :=
  if (size =? 64)%Z then nth_error [7; 13; 37]%Z k else if (size =? 32)%Z then nth_error [27; 17; 0]%Z k else None.
(* jsf.pyx:190-211, integer or None arguments only: raises ValueError unless
   size is 32 or 64, seed_size is 1, 2 or 3 and p, q, r are in 0..size-1. The
   result is the object before seeding (a..d are zeroed memory). *)
Definition in_range (size : Z) (v : option Z) : bool := match v with None => true | Some x => ((0 <=? x) && (x <=? size - 1))%Z end.
Definition jsf_new (size seeds : Z) (p q r : option Z) : outcome jsfpy :=
  if negb ((size =? 32) || (size =? 64))%Z then Raise ValueError
  else if negb ((seeds =? 1) || (seeds =? 2) || (seeds =? 3))%Z then Raise ValueError
  else if negb (in_range size p && in_range size q && in_range size r) then Raise ValueError
  else match (match p with Some p => Some p | None => jsf_default size 0 end),
             (match q with Some q => Some q | None => jsf_default size 1 end),
             (match r with Some r => Some r | None => jsf_default size 2 end) with
       | Some p, Some q, Some r => Ok (Buf (Jsf 0 0 0 0 p q r size seeds) false 0)
       | _, _, _ => Raise KeyError
       end.
(* JSF.parameters: jsf.pyx:14-57 *)
Definition jsf32_parameters : list (Z * Z * Z) :=
  [(27, 17, 0); (9, 16, 0); (9, 24, 0); (10, 16, 0); (10, 24, 0); (11, 16, 0); (11, 24, 0); (25, 8, 0); (25, 16, 0); (26, 8, 0);
   (26, 16, 0); (26, 17, 0); (27, 16, 0); (3, 14, 24); (3, 25, 15); (4, 15, 24); (6, 16, 28); (7, 16, 27); (8, 14, 3); (11, 16, 23);
   (12, 16, 22); (12, 17, 23); (13, 16, 22); (15, 25, 3); (16, 9, 3); (17, 9, 3); (17, 27, 7); (19, 7, 3); (23, 15, 11); (23, 16, 11);
   (23, 17, 11); (24, 3, 16); (24, 4, 16); (25, 14, 3); (27, 16, 6); (27, 16, 7)]%Z.
Definition jsf64_parameters : list (Z * Z * Z) := [(7, 13, 37); (39, 11, 0)]%Z.

(* jsf.pyx:271-300 *)
Definition jsf_get (b : jsfpy) : pyval :=
  let s := core b in
  PDict [("bit_generator", PStr "randomgen.jsf.JSF");
         ("state", PDict [("a", PInt (Z.of_N (js_a s))); ("b", PInt (Z.of_N (js_b s))); ("c", PInt (Z.of_N (js_c s))); ("d", PInt (Z.of_N (js_d s)));
                          ("p", PInt (js_p s)); ("q", PInt (js_q s)); ("r", PInt (js_r s))]);
         ("size", PInt (js_size s));
         ("has_uint32", bool_int (has32 b));
         ("uinteger", PInt (Z.of_N (u32 b)));
         ("seed_size", PInt (js_seeds s))]%string.
(* setup_generator, jsf.pyx:213-226, for one parameter: None selects the default *)
Definition js_param (size : Z) (k : nat) (v : pyval) : outcome Z :=
  match v with PNone => match jsf_default size k with Some z => Ok z | None => Raise KeyError end | _ => to_cint v end.
(* jsf.pyx:302-326 *)
Definition jsf_set (v : pyval) : M jsfpy unit := (
  lift (preamble "JSF" "randomgen.jsf.JSF" v);;
  z <- lift (obind (getitem v "size") to_cint);;
  modify (fun b => let s := core b in set_core (Jsf (js_a s) (js_b s) (js_c s) (js_d s) (js_p s) (js_q s) (js_r s) z (js_seeds s)) b);;
  st <- lift (getitem v "state");;
  p <- lift (getitem st "p");;
  q <- lift (getitem st "q");;
  r <- lift (getitem st "r");;
  x <- lift (js_param z 0 p);;
  modify (fun b => let s := core b in set_core (Jsf (js_a s) (js_b s) (js_c s) (js_d s) x (js_q s) (js_r s) (js_size s) (js_seeds s)) b);;
  x <- lift (js_param z 1 q);;
  modify (fun b => let s := core b in set_core (Jsf (js_a s) (js_b s) (js_c s) (js_d s) (js_p s) x (js_r s) (js_size s) (js_seeds s)) b);;
  x <- lift (js_param z 2 r);;
  modify (fun b => let s := core b in set_core (Jsf (js_a s) (js_b s) (js_c s) (js_d s) (js_p s) (js_q s) x (js_size s) (js_seeds s)) b);;
  let w := if (z =? 64)%Z then 64 else 32 in
  x <- lift (obind (getitem st "a") (to_uint w));;
  modify (fun b => let s := core b in set_core (js_put x (js_b s) (js_c s) (js_d s) s) b);;
  x <- lift (obind (getitem st "b") (to_uint w));;
  modify (fun b => let s := core b in set_core (js_put (js_a s) x (js_c s) (js_d s) s) b);;
  x <- lift (obind (getitem st "c") (to_uint w));;
  modify (fun b => let s := core b in set_core (js_put (js_a s) (js_b s) x (js_d s) s) b);;
  x <- lift (obind (getitem st "d") (to_uint w));;
  modify (fun b => let s := core b in set_core (js_put (js_a s) (js_b s) (js_c s) x s) b);;
  set_half v;;
  z <- lift (obind (getitem v "seed_size") to_cint);;
  modify (fun b => let s := core b in set_core (Jsf (js_a s) (js_b s) (js_c s) (js_d s) (js_p s) (js_q s) (js_r s) (js_size s) z) b))%py.

(* ------------------------------------------------------------------- facts *)
Definition rot_ok (w : N) (k : Z) : Prop := (0 < k < Z.of_N w)%Z.
Definition cint (z : Z) : Prop := (- 2 ^ 31 <= z < 2 ^ 31)%Z.
(* the parameters with defined shift counts *)
Definition js_params_ok (s : jsf) : Prop :=
  rot_ok (js_w s) (js_p s) /\ rot_ok (js_w s) (js_q s) /\ (js_r s = 0%Z \/ rot_ok (js_w s) (js_r s)).
Definition js_wf (s : jsf) : Prop := wf (js_w s) (js_a s) /\ wf (js_w s) (js_b s) /\ wf (js_w s) (js_c s) /\ wf (js_w s) (js_d s).
Definition js_ints (s : jsf) : Prop := cint (js_p s) /\ cint (js_q s) /\ cint (js_r s) /\ cint (js_size s) /\ cint (js_seeds s).
Definition jspy_wf (b : jsfpy) : Prop := js_wf (core b) /\ js_ints (core b) /\ wf 32 (u32 b).

Lemma rot_some w x k : rot_ok w k -> rot w x k = Some (rotl w x (Z.to_N k)).
Proof. unfold rot_ok, rot. intros H. destruct ((0 <? k) && _)%Z eqn:E; [reflexivity|exfalso; clear - H E; lia]. Qed.
Lemma rot_none w x k : ~ rot_ok w k -> rot w x k = None.
Proof. unfold rot_ok, rot. intros H. destruct ((0 <? k) && _)%Z eqn:E; [exfalso; clear - H E; lia|reflexivity]. Qed.
(* one defined step *)
Definition jsf_out (w : N) (s : jsf) : jsf :=
  let e := wsub w (js_a s) (rotl w (js_b s) (Z.to_N (js_p s))) in
  let a := N.lxor (js_b s) (rotl w (js_c s) (Z.to_N (js_q s))) in
  let b := wadd w (js_c s) (if (js_r s =? 0)%Z then js_d s else rotl w (js_d s) (Z.to_N (js_r s))) in
  js_put a b (wadd w (js_d s) e) (wadd w e a) s.
Lemma jsf_next_ok s : js_params_ok s -> jsf_next (js_w s) s = Some (jsf_out (js_w s) s, js_d (jsf_out (js_w s) s)).
Proof.
  intros (P & Q & R). unfold jsf_next. rewrite !rot_some by assumption.
  destruct (Z.eqb_spec (js_r s) 0) as [E|E]; [unfold jsf_out; rewrite E; reflexivity|].
  destruct R as [R|R]; [contradiction|]. rewrite rot_some by exact R. unfold jsf_out.
  destruct (Z.eqb_spec (js_r s) 0) as [E'|_]; [contradiction|reflexivity].
Qed.
Lemma jsf_next_ub s : ~ js_params_ok s -> jsf_next (js_w s) s = None.
Proof.
  intros H. unfold jsf_next.
  assert (D : forall k, rot_ok (js_w s) k \/ ~ rot_ok (js_w s) k) by (intros k; unfold rot_ok; clear; lia).
  destruct (D (js_p s)) as [P|P]; [|rewrite (rot_none _ _ _ P); reflexivity]. rewrite rot_some by exact P.
  destruct (D (js_q s)) as [Q|Q]; [|rewrite (rot_none _ _ _ Q); reflexivity]. rewrite rot_some by exact Q.
  destruct (Z.eqb_spec (js_r s) 0) as [E|E]; [exfalso; apply H; exact (conj P (conj Q (or_introl E)))|].
  destruct (D (js_r s)) as [R|R]; [exfalso; apply H; refine (conj P (conj Q (or_intror R)))|]. now rewrite (rot_none _ _ _ R).
Qed.
Lemma jsf_out_w s : js_w (jsf_out (js_w s) s) = js_w s. Proof. reflexivity. Qed.
Lemma jsf_out_params s : js_params_ok s -> js_params_ok (jsf_out (js_w s) s). Proof. intros H; exact H. Qed.
Lemma js_w_pos s : 0 < js_w s. Proof. unfold js_w. destruct (js_size s =? 64)%Z; reflexivity. Qed.
Lemma jsf_out_wf s : js_wf s -> js_wf (jsf_out (js_w s) s).
Proof.
  intros (A & B & C & D). unfold js_wf. rewrite !jsf_out_w. unfold jsf_out, js_put. cbn [js_a js_b js_c js_d].
  refine (conj _ (conj _ (conj _ _))); try apply wf_wadd. apply wf_lxor; [exact B|now apply wf_rotl].
Qed.
Lemma jsf_out_inj s t : js_params_ok s -> js_wf s -> js_wf t -> js_w s = js_w t ->
  jsf_out (js_w s) s = jsf_out (js_w t) t -> s = t.
Proof.
  intros (P & Q & R) (A & B & C & D) (A' & B' & C' & D') W. rewrite <- W in *. revert W P Q R A B C D A' B' C' D'.
  generalize (js_w s) as w. intros w _. destruct s as [a b c d p q r z k], t as [a' b' c' d' p' q' r' z' k'].
  cbn [js_a js_b js_c js_d js_p js_q js_r js_size js_seeds]. unfold jsf_out, js_put. cbn [js_a js_b js_c js_d js_p js_q js_r js_size js_seeds].
  intros P Q R A B C D A' B' C' D' H. injection H as H1 H2 H3 H4 -> -> -> -> ->. rewrite <- H1 in H4.
  apply wadd_inj_r in H4; [|apply wf_wsub|apply wf_wsub]. rewrite <- H4 in H3. apply wadd_inj_r in H3; [|assumption|assumption]. subst d'.
  apply wadd_inj_r in H2; [|assumption|assumption]. subst c'. apply lxor_inj_r in H1. subst b'.
  apply wsub_inj_l in H4; [|assumption|assumption]. now subst a'.
Qed.
Definition js_good (b : jsfpy) : Prop := js_params_ok (core b) /\ js_wf (core b).
Definition jsf_step (b : jsfpy) : jsfpy := set_core (jsf_out (js_w (core b)) (core b)) b.
Lemma jsf_raw_ok b : js_params_ok (core b) -> jsf_raw b = Some (jsf_step b, js_d (core (jsf_step b))).
Proof. intros H. unfold jsf_raw. rewrite jsf_next_ok by exact H. reflexivity. Qed.
Lemma jsf_step_good b : js_good b -> js_good (jsf_step b).
Proof. intros [H W]. split; [exact H|now apply jsf_out_wf]. Qed.
Lemma jsf_draws_ok n b : js_params_ok (core b) -> jsf_draws n b = Some (N.iter n jsf_step b).
Proof.
  intros H. assert (I : forall n, js_params_ok (core (N.iter n jsf_step b))).
  { intros m. apply Niter_inv; [intros x Hx; exact Hx|exact H]. }
  unfold jsf_draws. induction n as [|n IH] using N.peano_ind; [reflexivity|]. rewrite !N.iter_succ, IH. rewrite jsf_raw_ok by apply I. reflexivity.
Qed.
Lemma jsf_iter_w n b : js_w (core (N.iter n jsf_step b)) = js_w (core b).
Proof. apply (Niter_inv (fun x => js_w (core x) = js_w (core b))); [intros x Hx; exact Hx|reflexivity]. Qed.
Lemma jsf_iter_inj n a b : js_good a -> js_good b -> js_w (core a) = js_w (core b) ->
  N.iter n jsf_step a = N.iter n jsf_step b -> a = b.
Proof.
  intros Ha Hb W. assert (I : forall n x, js_good x -> js_good (N.iter n jsf_step x)).
  { intros m x Hx. apply Niter_inv; [exact jsf_step_good|exact Hx]. }
  induction n as [|n IH] using N.peano_ind; [trivial|]. rewrite !N.iter_succ. intros H. apply IH.
  destruct (I n a Ha) as [Pa Wa], (I n b Hb) as [_ Wb]. pose proof (jsf_iter_w n a) as E1. pose proof (jsf_iter_w n b) as E2.
  destruct (N.iter n jsf_step a) as [x h u], (N.iter n jsf_step b) as [y h' u']. cbn [core] in *.
  unfold jsf_step, set_core in H. cbn [core has32 u32] in H. apply (f_equal (fun z => (core z, has32 z, u32 z))) in H. cbn [core has32 u32] in H.
  assert (jsf_out (js_w x) x = jsf_out (js_w y) y /\ h = h' /\ u = u') as (H1 & -> & ->) by (revert H; generalize (jsf_out (js_w x) x) (jsf_out (js_w y) y); intros ? ? [= -> -> ->]; repeat split).
  f_equal. apply jsf_out_inj; try assumption. congruence.
Qed.

Lemma to_cint_ok z : cint z -> to_cint (PInt z) = Ok z.
Proof. unfold cint, to_cint. intros H. destruct ((- 2 ^ 31 <=? z) && (z <? 2 ^ 31))%Z eqn:E; [reflexivity|exfalso; clear - H E; lia]. Qed.
Lemma js_param_ok size k z : cint z -> js_param size k (PInt z) = Ok z.
Proof. intros H. unfold js_param. now apply to_cint_ok. Qed.
Arguments js_param : simpl never.
Lemma jsf_set_get s t : jspy_wf s -> jsf_set (jsf_get s) t = (s, Ok tt).
Proof.
  intros ((A & B & C & D) & (P & Q & R & Z & K) & U). destruct s as [[a b c d p q r z k] h u], t as [[a' b' c' d' p' q' r' z' k'] h' u']. unfold js_w in *.
  cbn [core js_a js_b js_c js_d js_p js_q js_r js_size js_seeds u32] in *.
  unfold jsf_set, jsf_get. cbn [core has32 u32 js_a js_b js_c js_d js_p js_q js_r js_size js_seeds].
  remember (if (z =? 64)%Z then 64 else 32) as w.
  do 18 (repeat (rewrite bind_lift; cbn; try rewrite <- Heqw; rewrite ?to_cint_ok, ?js_param_ok, ?to_uint_ok by assumption);
    try (rewrite bind_modify; unfold set_core, js_put; cbn [core has32 u32 js_a js_b js_c js_d js_p js_q js_r js_size js_seeds])).
  unfold bind at 1. rewrite (set_half_run _ h u) by (try reflexivity; exact U).
  rewrite bind_lift. reflexivity.
Qed.
