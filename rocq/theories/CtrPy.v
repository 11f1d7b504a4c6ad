(* Philox and ThreeFry Python objects: variants, reset, seeding by key and
   counter, state getter and setter.
   Model of philox.pyx:176-413 and threefry.pyx:168-393. *)
From Verif Require Import Word Arr Common MultiWord Ctr Blocks Py.
From Coq Require Import String ZifyBool ZifyNat ZifyN.
Open Scope N_scope.

(* o_n, o_w: self.n, self.w (C ints); o_fn: the variant whose functions
   _setup_generator installed; o_st: rng_state *)
Record cobj := Cobj { o_n : Z; o_w : Z; o_fn : N * N; o_st : cst }.
(* which class: Philox has n/2 key words, ThreeFry n *)
Inductive cls := Philox | ThreeFry.
Definition key_words (c : cls) (n : Z) : Z := match c with Philox => n / 2 | ThreeFry => n end%Z.
Definition cname (c : cls) : string := match c with Philox => "Philox" | ThreeFry => "ThreeFry" end.
Definition cfqn (c : cls) : string := match c with Philox => "randomgen.philox.Philox" | ThreeFry => "randomgen.threefry.ThreeFry" end.

Definition variants : list (N * N) := [(4, 64); (2, 64); (4, 32); (2, 32)].
(* block function of a variant (number, width) *)
Definition blockfn (c : cls) (v : N * N) : list N -> list N -> list N :=
  match c, v with
  | Philox, (4, 64) => philox4x64 | Philox, (2, 64) => philox2x64
  | Philox, (4, 32) => philox4x32 | Philox, (2, 32) => philox2x32
  | ThreeFry, (4, 64) => threefry4x64 | ThreeFry, (2, 64) => threefry2x64
  | ThreeFry, (4, 32) => threefry4x32 | ThreeFry, (2, 32) => threefry2x32
  | _, _ => fun _ c => c
  end.
(* philox.pyx:194-215 _setup_generator: no branch for other (n, w), which
   leaves the functions as they were *)
Definition setup_generator (n w : Z) (old : N * N) : N * N :=
  if ((n =? 4) && (w =? 64))%Z then (4, 64)
  else if ((n =? 2) && (w =? 64))%Z then (2, 64)
  else if ((n =? 4) && (w =? 32))%Z then (4, 32)
  else if ((n =? 2) && (w =? 32))%Z then (2, 32)
  else old.

(* philox.pyx:292-319, threefry.pyx seed(key=.., counter=..) after object_to_int:
   key and counter as integers in range; words little endian *)
Definition seed_key (c : cls) (v : N * N) (key counter : N) : cobj :=
  let '(n, w) := v in
  Cobj (Z.of_N n) (Z.of_N w) v
    (Cst (to_words w (N.to_nat n) counter) (to_words w (Z.to_nat (key_words c (Z.of_N n))) key) 4 [0; 0; 0; 0] false 0).

(* state getter, philox.pyx:321-367 *)
Definition c_get (c : cls) (o : cobj) : pyval :=
  let bits := if (o_w o =? 64)%Z then 64 else 32 in
  PDict [("bit_generator", PStr (cfqn c));
         ("state", PDict [("counter", PArr bits (c_ctr (o_st o))); ("key", PArr bits (c_key (o_st o)))]);
         ("buffer", PArr bits (firstn (Z.to_nat (o_n o)) (c_buf (o_st o))));
         ("buffer_pos", PInt (c_pos (o_st o)));
         ("has_uint32", bool_int (c_has (o_st o)));
         ("uinteger", PInt (Z.of_N (c_ui (o_st o))));
         ("number", PInt (o_n o)); ("width", PInt (o_w o))]%string.

(* np.dtype("uint" + str(bits)) exists for these *)
Definition dtype_ok (w : Z) : bool := ((w =? 8) || (w =? 16) || (w =? 32) || (w =? 64))%Z.
(* check_state_array with the unvalidated n and w *)
Definition check_arrz (len bits : Z) (v : pyval) : outcome (list N) :=
  if dtype_ok bits then
    if (len <? 0)%Z then Raise ValueError else check_arr (Z.to_N len) (Z.to_N bits) v
  else Raise TypeError.

(* outcome of the setter: None is undefined behaviour (writes past the C
   arrays ctr.v and buffer, which have at most 4 elements) *)
Definition MU (St A : Type) := St -> option (St * outcome A).
Definition liftU {A B} (o : outcome A) (k : A -> MU cobj B) : MU cobj B :=
  fun s => match o with Ok a => k a s | Raise e => Some (s, Raise e) end.
(* state setter, philox.pyx:369-413, threefry.pyx:354-393 *)
Definition c_set (c : cls) (v : pyval) : MU cobj unit :=
  liftU (preamble (cname c) (cfqn c) v) (fun _ =>
  match v with
  | PDict l =>
    liftU (to_cint (get_default l "number" (PInt 4))) (fun n =>
    fun o => let o := Cobj n (o_w o) (o_fn o) (o_st o) in
    liftU (to_cint (get_default l "width" (PInt 64))) (fun w =>
    fun o => let o := Cobj (o_n o) w (o_fn o) (o_st o) in
    let o := Cobj (o_n o) (o_w o) (setup_generator (o_n o) (o_w o) (o_fn o)) (o_st o) in
    (liftU (getitem v "state") (fun st =>
     liftU (getitem st "counter") (fun a => liftU (check_arrz n w a) (fun ctr =>
     liftU (getitem st "key") (fun a => liftU (check_arrz (key_words c n) w a) (fun key =>
     liftU (getitem v "buffer") (fun a => liftU (check_arrz n w a) (fun buf =>
     fun o =>
       if (4 <? n)%Z then None
       else
         let o := Cobj (o_n o) (o_w o) (o_fn o) (Cst ctr key 4 (buf ++ repeat 0 (4 - Z.to_nat n)) false 0) in
         let s0 := o_st o in
         (liftU (obind (getitem v "has_uint32") to_cint) (fun h => fun o =>
          let o := Cobj (o_n o) (o_w o) (o_fn o) (Cst ctr key (c_pos s0) (c_buf s0) (nonzero h) 0) in
          liftU (obind (getitem v "uinteger") (to_uint 32)) (fun u => fun o =>
          let o := Cobj (o_n o) (o_w o) (o_fn o) (Cst ctr key (c_pos s0) (c_buf s0) (nonzero h) u) in
          liftU (obind (getitem v "buffer_pos") to_cint) (fun p => fun o =>
          Some (Cobj (o_n o) (o_w o) (o_fn o) (Cst ctr key p (c_buf s0) (nonzero h) u), Ok tt)) o) o)) o)))))))) o) o)
  | _ => fun o => Some (o, Raise TypeError)
  end).

(* objects as the class produces them *)
Definition o_ok (c : cls) (o : cobj) : Prop :=
  exists n w, In (n, w) variants /\ o_n o = Z.of_N n /\ o_w o = Z.of_N w /\ o_fn o = (n, w)
  /\ words w (N.to_nat n) (c_ctr (o_st o)) /\ words w (Z.to_nat (key_words c (Z.of_N n))) (c_key (o_st o))
  /\ words w 4 (c_buf (o_st o)) /\ skipn (N.to_nat n) (c_buf (o_st o)) = repeat 0 (4 - N.to_nat n)
  /\ (- 2 ^ 31 <= c_pos (o_st o) < 2 ^ 31)%Z /\ wf 32 (c_ui (o_st o)).

Lemma to_cint_ok z : (- 2 ^ 31 <= z < 2 ^ 31)%Z -> to_cint (PInt z) = Ok z.
Proof. intros H. unfold to_cint. now replace ((- 2 ^ 31 <=? z) && (z <? 2 ^ 31))%Z with true by lia. Qed.

Theorem c_set_get c s t : o_ok c s -> c_set c (c_get c s) t = Some (s, Ok tt).
Proof.
  intros (n & w & Hin & En & Ew & Ef & [Cl Cw] & [Kl Kw] & [Bl Bw] & Bs & Hp & Hu).
  destruct s as [sn sw sf [ctr key pos buf has ui]]. cbn [o_n o_w o_fn o_st c_ctr c_key c_pos c_buf c_ui] in *. subst sn sw sf.
  set (buf' := firstn (N.to_nat n) buf).
  assert (Bl' : N.of_nat (List.length buf') = n /\ Forall (wf w) buf' /\ buf' ++ repeat 0 (4 - N.to_nat n) = buf).
  { assert (N.to_nat n <= 4)%nat by (cbn in Hin; destruct Hin as [[= <- <-]|[[= <- <-]|[[= <- <-]|[[= <- <-]|[]]]]]; cbn; lia).
    unfold buf'. split; [|split].
    - rewrite firstn_length, Bl. lia.
    - rewrite <- (firstn_skipn (N.to_nat n) buf) in Bw. apply Forall_app in Bw. apply Bw.
    - rewrite <- Bs. apply firstn_skipn. }
  destruct Bl' as (B1 & B2 & B3).
  assert (C1 : N.of_nat (List.length ctr) = n) by lia.
  assert (K1 : N.of_nat (List.length key) = Z.to_N (key_words c (Z.of_N n))) by (rewrite Kl; lia).
  unfold c_set, c_get. cbn [o_n o_w o_st c_ctr c_key c_pos c_buf c_ui c_has]. rewrite N_nat_Z || idtac.
  replace (Z.to_nat (Z.of_N n)) with (N.to_nat n) by lia. fold buf'.
  assert (P : preamble (cname c) (cfqn c) (PDict [("bit_generator", PStr (cfqn c));
         ("state", PDict [("counter", PArr (if (Z.of_N w =? 64)%Z then 64 else 32) ctr); ("key", PArr (if (Z.of_N w =? 64)%Z then 64 else 32) key)]);
         ("buffer", PArr (if (Z.of_N w =? 64)%Z then 64 else 32) buf');
         ("buffer_pos", PInt pos); ("has_uint32", bool_int has); ("uinteger", PInt (Z.of_N ui));
         ("number", PInt (Z.of_N n)); ("width", PInt (Z.of_N w))]%string) = Ok tt) by (destruct c; reflexivity).
  rewrite P. clear P. cbn [liftU get_default assoc getitem String.eqb Ascii.eqb Bool.eqb obind].
  assert (V : (0 <= Z.of_N n < 2 ^ 31)%Z /\ (0 <= Z.of_N w < 2 ^ 31)%Z /\ (4 <? Z.of_N n)%Z = false
     /\ setup_generator (Z.of_N n) (Z.of_N w) (o_fn t) = (n, w) /\ dtype_ok (Z.of_N w) = true /\ (if (Z.of_N w =? 64)%Z then 64 else 32) = w).
  { cbn in Hin. destruct Hin as [[= <- <-]|[[= <- <-]|[[= <- <-]|[[= <- <-]|[]]]]]; repeat split; try reflexivity; discriminate. }
  destruct V as (V1 & V2 & V3 & V4 & V5 & V6). rewrite !V6.
  unfold liftU. rewrite !to_cint_ok by lia. cbn [o_n o_w o_fn o_st]. rewrite ?V4.
  unfold check_arrz. rewrite V5.
  assert (Kn : (key_words c (Z.of_N n) <? 0)%Z = false) by (destruct c; cbn [key_words]; lia).
  rewrite Kn. replace (Z.of_N n <? 0)%Z with false by lia. rewrite !N2Z.id.
  rewrite !check_arr_ok by assumption.
  cbn [liftU]. rewrite V3. cbn [o_n o_w o_fn o_st c_pos c_buf].
  rewrite to_cint_bool, to_uint_ok by exact Hu. cbn [liftU].
  rewrite nonzero_bool, ?to_cint_ok by exact Hp.
  replace (Z.to_nat (Z.of_N n)) with (N.to_nat n) by lia. rewrite B3. reflexivity.
Qed.
