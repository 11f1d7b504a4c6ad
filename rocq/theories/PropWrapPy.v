(* C46, objects: UserBitGenerator(...), from_ctypes and from_cfunc. call f g w is a call
   of the function f of the bitgen_t of g; W is whatever the callables read and change. *)
From Verif Require Import Word Wrapper WrapPy.
From Verif Require Py.
From Coq Require Import ZifyBool ZifyNat ZifyN.
Open Scope Z_scope.
Ltac Zify.zify_post_hook ::= idtac.

(* a function that is given is used, for its own width only; its result is reduced to
   that width; a function that is not given comes from next_raw alone *)
Theorem C46_given : forall W (raw : @callable W) bits f64 f32 fd st gt se w, let g := new raw bits f64 f32 fd st gt se in let p := b_ptr g in
  call b_raw g w = u_raw (raw p) w /\
  call b_64 g w = match f64 with Some f => u_raw (f p) w | None => u_next64 (raw p) bits w end /\
  call b_32 g w = match f32 with Some f => let '(w1, v) := f p w in (w1, v mod 2 ^ 32) | None => u_next32 (raw p) bits w end /\
  call b_double g w = match fd with Some f => f p w | None => u_double (raw p) bits w end.
Proof.
  intros W raw bits f64 f32 fd st gt se w g p. unfold call. subst p. set (p := b_ptr g).
  cbn [g new b_raw b_64 b_32 b_double]. unfold setup_64, setup_32, setup_double, cfun, u_next64, u_next32, u_double, u_raw.
  split; [reflexivity|]. split; [|split].
  - destruct f64; [reflexivity|]. destruct (bits =? 64); reflexivity.
  - destruct f32; [reflexivity|]. destruct (bits =? 32); [|reflexivity]. destruct (raw p w); reflexivity.
  - destruct fd as [f|]; [destruct (f p w); reflexivity|]. destruct (bits =? 64); [destruct (raw_64_to_double _ _)|destruct (raw_32_to_double _ _)]; reflexivity.
Qed.
(* the functions receive the pointer that was given, the null pointer if none was *)
Theorem C46_pointer : forall W (raw : @callable W) bits f64 f32 fd st gt se,
  b_ptr (new raw bits f64 f32 fd st gt se) = match st with Some p => p | None => 0 end.
Proof. reflexivity. Qed.
(* integer results are always in range, whatever the callables return *)
Theorem C46_in_range : forall W (raw : @callable W) bits f64 f32 fd st gt se w, let g := new raw bits f64 f32 fd st gt se in
  0 <= snd (call b_raw g w) < 2 ^ 64 /\ 0 <= snd (call b_64 g w) < 2 ^ 64 /\ 0 <= snd (call b_32 g w) < 2 ^ 32.
Proof.
  intros W raw bits f64 f32 fd st gt se w g. unfold call. set (p := b_ptr g). cbn [g new b_raw b_64 b_32]. unfold setup_64, setup_32, cfun, c_u64, c_u32.
  split; [destruct (raw p w); cbn [snd]; apply Z.mod_pos_bound; reflexivity|]. split.
  - destruct f64 as [f|]; [destruct (f p w)|destruct (bits =? 64); [destruct (raw p w)|destruct (raw_32_to_64 _ _)]]; cbn [snd]; apply Z.mod_pos_bound; reflexivity.
  - destruct f32 as [f|]; [destruct (f p w)|destruct (bits =? 32); [destruct (raw p w)|destruct (raw_64_to_32 _ _)]]; cbn [snd]; apply Z.mod_pos_bound; reflexivity.
Qed.
(* from_ctypes takes exactly four functions with return types uint64, uint64, uint32 and
   double, and uses them unchanged; anything else raises and no object is made *)
Theorem C46_ctypes : forall W (o1 o2 o3 o4 : @cobj W) st gt se g,
  from_ctypes o1 o2 o3 o4 st gt se = Ok g <->
  exists n1 n2 n3 n4 f1 f2 f3 f4, o1 = CTypes n1 RU64 f1 /\ o2 = CTypes n2 RU64 f2 /\ o3 = CTypes n3 RU32 f3 /\ o4 = CTypes n4 RDouble f4 /\
    g = UBG f1 f2 f3 f4 (match st with Some p => p | None => 0 end) gt se.
Proof.
  intros W o1 o2 o3 o4 st gt se g. unfold from_ctypes. split.
  - destruct o1 as [n1 [] f1| |]; try discriminate. destruct o2 as [n2 [] f2| |]; try discriminate.
    destruct o3 as [n3 [] f3| |]; try discriminate. destruct o4 as [n4 [] f4| |]; try discriminate. cbn [check1 ret_eqb Py.obind]. intros [= <-].
    exists n1, n2, n3, n4, f1, f2, f3, f4. repeat split.
  - intros (n1 & n2 & n3 & n4 & f1 & f2 & f3 & f4 & -> & -> & -> & -> & ->). reflexivity.
Qed.
Theorem C46_ctypes_error : forall W (o1 o2 o3 o4 : @cobj W) st gt se e, from_ctypes o1 o2 o3 o4 st gt se = Raise e -> e = TypeError.
Proof.
  intros W o1 o2 o3 o4 st gt se e. unfold from_ctypes.
  assert (C : forall r (o : @cobj W), (exists f, check1 r o = Ok f) \/ check1 r o = Raise TypeError).
  { intros r [n r' f|n r' f|]; cbn [check1]; auto. destruct (ret_eqb r' r); eauto. }
  destruct (C RU64 o1) as [[f1 ->]| ->]; cbn [Py.obind]; [|congruence]. destruct (C RU64 o2) as [[f2 ->]| ->]; cbn [Py.obind]; [|congruence].
  destruct (C RU32 o3) as [[f3 ->]| ->]; cbn [Py.obind]; [|congruence]. destruct (C RDouble o4) as [[f4 ->]| ->]; cbn [Py.obind]; congruence.
Qed.
(* the arguments of the functions are not looked at: one with two arguments is taken *)
Theorem C46_argtypes_refuted : forall W (f : @callable W) st gt se,
  exists g, from_ctypes (CTypes 2 RU64 f) (CTypes 2 RU64 f) (CTypes 0 RU32 f) (CTypes 3 RDouble f) st gt se = Ok g.
Proof. intros W f st gt se. eexists. reflexivity. Qed.
(* from_cfunc is from_ctypes on the ctypes functions of four numba functions *)
Theorem C46_cfunc : forall W (o1 o2 o3 o4 : @cobj W) st gt se g,
  from_cfunc o1 o2 o3 o4 st gt se = Ok g <->
  exists n1 n2 n3 n4 f1 f2 f3 f4, o1 = CNumba n1 RU64 f1 /\ o2 = CNumba n2 RU64 f2 /\ o3 = CNumba n3 RU32 f3 /\ o4 = CNumba n4 RDouble f4 /\
    from_ctypes (CTypes n1 RU64 f1) (CTypes n2 RU64 f2) (CTypes n3 RU32 f3) (CTypes n4 RDouble f4) st gt se = Ok g.
Proof.
  intros W o1 o2 o3 o4 st gt se g. unfold from_cfunc. split.
  - destruct o1 as [|n1 r1 f1|]; try discriminate. destruct o2 as [|n2 r2 f2|]; try discriminate.
    destruct o3 as [|n3 r3 f3|]; try discriminate. destruct o4 as [|n4 r4 f4|]; try discriminate. cbn [ctypes_of Py.obind]. intros H.
    destruct (proj1 (C46_ctypes _ _ _ _ _ _ _ _ _) H) as (m1 & m2 & m3 & m4 & h1 & h2 & h3 & h4 & E1 & E2 & E3 & E4 & _).
    injection E1 as -> -> ->. injection E2 as -> -> ->. injection E3 as -> -> ->. injection E4 as -> -> ->.
    exists m1, m2, m3, m4, h1, h2, h3, h4. auto 6.
  - intros (n1 & n2 & n3 & n4 & f1 & f2 & f3 & f4 & -> & -> & -> & -> & H). exact H.
Qed.
(* the state property passes through the getter and setter; without them it raises.
   Assigning what was read restores every later draw, if the setter undoes what the
   callables do *)
Theorem C46_state_missing : forall W (raw : @callable W) bits f64 f32 fd st gt se w v, let g := new raw bits f64 f32 fd st gt se in
  (gt = None -> get_state g w = Raise NotImplementedErr) /\ (se = None -> set_state g v w = Raise NotImplementedErr).
Proof. intros W raw bits f64 f32 fd st gt se w v g. split; intros ->; reflexivity. Qed.
Theorem C46_state_restore : forall W (raw : @callable W) bits f64 f32 fd st gt se w w', let g := new raw bits f64 f32 fd st (Some gt) (Some se) in
  (forall x y, se (snd (gt x)) y = x) -> fst (gt w) = w ->
  exists v, get_state g w = Ok (w, v) /\ set_state g v w' = Ok w.
Proof.
  intros W raw bits f64 f32 fd st gt se w w' g R F. exists (snd (gt w)). unfold get_state, set_state. cbn [g new b_getter b_setter].
  rewrite R. split; [|reflexivity]. rewrite <- F at 2. now destruct (gt w).
Qed.
Example C46_object_case :
  let raw := fun (p s : Z) => (s + 1, s * 1000000007 + p) in
  let g := new raw 32 (Some (fun p s => (s + 10, -1))) None None (Some 8) (Some (fun s => (s, s))) (Some (fun v _ => v)) in
  call b_64 g 5 = (15, 2 ^ 64 - 1) /\ call b_32 g 5 = (6, 5000000043 mod 2 ^ 32) /\ get_state g 5 = Ok (5, 5) /\ set_state g 3 9 = Ok 3.
Proof. vm_compute. repeat split; reflexivity. Qed.

Print Assumptions C46_given.
Print Assumptions C46_pointer.
Print Assumptions C46_in_range.
Print Assumptions C46_ctypes.
Print Assumptions C46_ctypes_error.
Print Assumptions C46_argtypes_refuted.
Print Assumptions C46_cfunc.
Print Assumptions C46_state_missing.
Print Assumptions C46_state_restore.
