(* C94: the text shown for a SeedSequence is a Python expression for it.

   repr lim name q: the text; lim: the limit on decimal digits (0: none). read is what Python makes of a call
   name(key=value, ...) with integer literals and tuples of them: the constructor's arguments. *)
From Verif Require Import Word SeedSeq SSeqPy SSeqPyLem PropSSeqPy SSeqRepr.
From Verif Require Py.
From Coq Require Import String Ascii Decimal DecimalFacts DecimalN DecimalString ZifyBool ZifyNat ZifyN.
Notation length := List.length.
Open Scope string_scope.
Ltac Zify.zify_post_hook ::= idtac.

(* ---------------------------------------------------------------- reading *)
Definition newline : string := String "010" "".
Fixpoint strip (p s : string) : option string :=
  match p, s with
  | EmptyString, _ => Some s
  | String a p, String b s => if Ascii.eqb a b then strip p s else None
  | String _ _, EmptyString => None
  end.
(* the digits at the beginning of s, and the rest *)
Fixpoint literal (s : string) : Decimal.uint * string :=
  match s with
  | EmptyString => (Nil, s)
  | String c s' => let (d, r) := literal s' in match uint_of_char c (Some d) with Some d' => (d', r) | None => (Nil, s) end
  end.
(* an integer literal: no leading zeros unless all digits are zero; the limit on digits holds for literals too *)
Definition integer (lim : N) (s : string) : option (Z * string) :=
  let (d, r) := literal s in
  match d with
  | Nil => None
  | _ => if negb (Decimal.uint_beq d (unorm d)) && negb (N.of_uint d =? 0)%N then None
         else if (negb (lim =? 0) && (lim <? N.of_nat (nb_digits d)))%N then None
         else Some (Z.of_N (N.of_uint d), r)
  end.
(* after "(a": ",)" or ", b, ...)" *)
Fixpoint items (lim : N) (fuel : nat) (s : string) : option (list Z * string) :=
  match strip ")" s with
  | Some r => Some ([], r)
  | None =>
      match fuel, strip ", " s with
      | S fuel, Some s => match integer lim s with
                          | Some (k, s) => match items lim fuel s with Some (ks, s) => Some (k :: ks, s) | None => None end
                          | None => None
                          end
      | _, _ => None
      end
  end.
Definition tuple (lim : N) (s : string) : option (list Z * string) :=
  match strip "(" s with
  | Some s => match integer lim s with
              | Some (k, s) => match strip ",)" s with
                               | Some r => Some ([k], r)
                               | None => match items lim (String.length s) s with Some (k' :: ks, s) => Some (k :: k' :: ks, s) | _ => None (* (k) is no tuple *) end
                               end
              | None => None
              end
  | None => None
  end.
(* key=value, if it is there *)
Definition argument {A} (key : string) (value : string -> option (A * string)) (default : A) (s : string) : option (A * string) :=
  match strip ("    " ++ key ++ "=") s with
  | None => Some (default, s)
  | Some s => match value s with
              | Some (v, s) => match strip ("," ++ newline) s with Some s => Some (v, s) | None => None end
              | None => None
              end
  end.
Definition then_ {A B} (x : option (A * string)) (f : A -> string -> option B) : option B := match x with Some (a, s) => f a s | None => None end.
Definition read (lim : N) (name text : string) : option (sv * list sv * Z * Z) :=
  match strip (name ++ "(" ++ newline) text with
  | None => None
  | Some s =>
      then_ (argument "entropy" (fun s => option_map (fun x => (VInt (fst x), snd x)) (integer lim s)) VNone s) (fun e s =>
      then_ (argument "spawn_key" (tuple lim) [] s) (fun ks s =>
      then_ (argument "pool_size" (integer lim) 4%Z s) (fun p s =>
      then_ (argument "n_children_spawned" (integer lim) 0%Z s) (fun c s =>
      match strip ")" s with Some EmptyString => Some (e, map VInt ks, p, c) | _ => None end))))
  end.

(* ---------------------------------------------------------------- reading what was written *)
Lemma sapp_assoc (a b c : string) : (a ++ b) ++ c = a ++ (b ++ c).
Proof. induction a as [|x a IH]; cbn; [reflexivity | now rewrite IH]. Qed.
Lemma strip_app p : forall s, strip p (p ++ s) = Some s.
Proof. induction p as [|a p IH]; intros s; cbn; [reflexivity | now rewrite Ascii.eqb_refl, IH]. Qed.
Lemma literal_dec d : forall c s, (forall d, uint_of_char c (Some d) = None) -> literal (dec d ++ String c s) = (d, String c s).
Proof.
  induction d; intros c s H; cbn [NilEmpty.string_of_uint append literal]; try (rewrite (IHd c s H); reflexivity).
  destruct (literal s). now rewrite H.
Qed.
Definition small (lim : N) (z : Z) : Prop := (0 <= z)%Z /\ (lim = 0 \/ N.of_nat (nb_digits (N.to_uint (Z.to_N z))) <= lim)%N.
Lemma to_uint_not_nil n : N.to_uint n <> Nil.
Proof.
  intros E. pose proof (DecimalN.Unsigned.to_of (N.to_uint n)) as H. rewrite DecimalN.Unsigned.of_to, E in H. discriminate.
Qed.
Lemma to_uint_norm n : unorm (N.to_uint n) = N.to_uint n.
Proof. now rewrite <- DecimalN.Unsigned.to_of, DecimalN.Unsigned.of_to. Qed.
Lemma str_small lim z : small lim z -> str_of_int lim z = Ok (dec (N.to_uint (Z.to_N z))).
Proof.
  intros [P H]. unfold str_of_int. replace (Z.abs_N z) with (Z.to_N z) by lia. cbv zeta.
  pose proof (to_uint_not_nil (Z.to_N z)) as N. set (d := N.to_uint (Z.to_N z)) in *. clearbody d.
  replace (negb (lim =? 0) && (lim <? N.of_nat (nb_digits d)))%N with false by lia.
  replace (z <? 0)%Z with false by lia. cbn [append]. f_equal. now destruct d.
Qed.
Lemma integer_dec lim z c s : small lim z -> (forall d, uint_of_char c (Some d) = None) ->
  integer lim (dec (N.to_uint (Z.to_N z)) ++ String c s) = Some (z, String c s).
Proof.
  intros [P H] C. unfold integer. rewrite literal_dec by exact C. rewrite to_uint_norm, DecimalN.Unsigned.of_to.
  pose proof (to_uint_not_nil (Z.to_N z)) as N. set (d := N.to_uint (Z.to_N z)) in *. clearbody d.
  replace (negb (lim =? 0) && (lim <? N.of_nat (nb_digits d)))%N with false by lia.
  rewrite (internal_uint_dec_lb d d eq_refl). cbn [negb andb]. rewrite Z2N.id by exact P. now destruct d.
Qed.
Lemma items_rest lim ks : Forall (small lim) ks -> exists r, tuple_rest lim ks = Ok r /\
  (forall fuel s, (length ks <= fuel)%nat -> items lim fuel (r ++ s) = Some (ks, s)) /\ (length ks <= String.length r)%nat /\
  (exists c r', r = String c r' /\ (forall d, uint_of_char c (Some d) = None)) /\ (ks <> [] -> forall s, strip ",)" (r ++ s) = None).
Proof.
  induction 1 as [|k ks Hk Hks IH]; cbn [tuple_rest].
  - exists ")". split; [reflexivity|]. split; [intros fuel s _; destruct fuel; reflexivity|]. split; [cbn; lia|]. split; [|congruence].
    exists ")"%char, "". split; reflexivity.
  - destruct IH as (r & E & I & L & (c & r' & -> & C) & _). rewrite (str_small lim k Hk), E. cbn [obind Py.obind].
    exists (", " ++ dec (N.to_uint (Z.to_N k)) ++ String c r'). split; [reflexivity|]. split; [|split; [|split]].
    + intros [|fuel] s F; [cbn in F; lia|]. cbn [append items strip Ascii.eqb Bool.eqb]. rewrite sapp_assoc. cbn [append].
      rewrite integer_dec by assumption. change (String c (r' ++ s)) with (String c r' ++ s). rewrite I by (cbn in F; lia). reflexivity.
    + cbn [List.length append String.length]. assert (A : forall a b, String.length (a ++ b) = (String.length a + String.length b)%nat) by (intros a b; induction a as [|x a IHa]; cbn; [reflexivity | now rewrite IHa]).
      rewrite A. lia.
    + eexists. eexists. split; [reflexivity | reflexivity].
    + intros _ s. reflexivity.
Qed.
Lemma tuple_written lim ks : Forall (small lim) ks -> ks <> [] -> exists r, tuple_repr lim ks = Ok r /\ forall s, tuple lim (r ++ s) = Some (ks, s).
Proof.
  intros [|k ks' Hk Hks] N; [congruence|]. clear N. unfold tuple_repr. destruct ks' as [|k' ks'].
  - rewrite (str_small lim k Hk). cbn [Py.obind]. eexists. split; [reflexivity|]. intros s. unfold tuple. cbn [append strip Ascii.eqb Bool.eqb].
    rewrite sapp_assoc. cbn [append]. rewrite integer_dec by (try exact Hk; reflexivity). reflexivity.
  - destruct (items_rest lim _ Hks) as (r & E & I & L & (c & r' & -> & C) & S). rewrite (str_small lim k Hk), E. cbn [Py.obind].
    eexists. split; [reflexivity|]. intros s. unfold tuple. rewrite sapp_assoc, strip_app, sapp_assoc. cbn [append].
    rewrite integer_dec by assumption. change (String c (r' ++ s)) with (String c r' ++ s). rewrite S by discriminate. rewrite I; [reflexivity|].
    assert (A : forall a b, String.length (a ++ b) = (String.length a + String.length b)%nat) by (intros a b; induction a as [|x a IHa]; cbn; [reflexivity | now rewrite IHa]). rewrite A. lia.
Qed.
Lemma argument_written {A} key (value : string -> option (A * string)) default v a s : (forall s, value (v ++ String "," s) = Some (a, String "," s)) ->
  argument key value default (("    " ++ key ++ "=" ++ v ++ "," ++ nl) ++ s) = Some (a, s).
Proof.
  intros H. unfold argument. replace (("    " ++ key ++ "=" ++ v ++ "," ++ nl) ++ s) with (("    " ++ key ++ "=") ++ (v ++ String "," (nl ++ s))).
  - rewrite strip_app, H. change (String "," (nl ++ s)) with (("," ++ nl) ++ s). now rewrite strip_app.
  - cbn [append]. do 4 f_equal. rewrite !sapp_assoc. cbn [append]. rewrite !sapp_assoc. reflexivity.
Qed.

Lemma ints_of_map ks : ints_of (map VInt ks) = Some ks.
Proof. induction ks as [|k ks IH]; cbn; [reflexivity | now rewrite IH]. Qed.
Lemma vcoerce_ints_nonneg lim ks key : vcoerce lim (VSeq true (map VInt ks)) = Py.Ok key -> Forall (fun k => 0 <= k)%Z ks.
Proof.
  revert key. induction ks as [|k ks IH]; intros key H; [constructor|]. cbn [map] in H. rewrite vcoerce_cons in H. change (vcoerce lim (VInt k)) with (words_of k) in H. unfold words_of, int_to_words in H.
  destruct (Z.ltb_spec k 0) as [L|L]; [discriminate|]. constructor; [exact L|].
  destruct (vcoerce lim (VSeq true (map VInt ks))) as [l|]; [now apply (IH l)|]. destruct (k =? 0)%Z; cbn [Py.obind] in H; discriminate H.
Qed.

(* ---------------------------------------------------------------- claims *)
(* no more decimal digits than the interpreter converts *)
Definition short (lim : N) (z : Z) : Prop := (lim = 0 \/ N.of_nat (nb_digits (N.to_uint (Z.to_N z))) <= lim)%N.
(* the text evaluates to an equal object: the same pool, words and later children *)
Theorem C94_eval : forall lim rb name q z ks, made lim q -> q_entropy q = VInt z -> q_key q = map VInt ks ->
  Forall (short lim) (z :: q_size q :: q_children q :: ks) ->
  exists text args, repr lim name q = Some (Ok text) /\ read lim name text = Some args /\ rebuild lim rb args = Ok q.
Proof.
  intros lim rb name q z ks M Ez Ek F. pose proof (C86_state lim q rb M) as R. unfold state in R.
  apply made_good in M. destruct M as (_ & _ & HP & HC & run & key & Cz & Ck & _).
  rewrite Ez in Cz. cbn [vcoerce] in Cz. unfold words_of, int_to_words in Cz. destruct (Z.ltb_spec z 0) as [?|Pz]; [discriminate|]. clear Cz.
  rewrite Ek in Ck. apply vcoerce_ints_nonneg in Ck.
  apply Forall_cons_iff in F. destruct F as [Fz F]. apply Forall_cons_iff in F. destruct F as [Fp F]. apply Forall_cons_iff in F. destruct F as [Fc F].
  assert (K : Forall (small lim) ks) by (rewrite Forall_forall in *; intros k Hk; split; [now apply Ck | now apply F]). clear F Ck.
  assert (Sz : small lim z) by (split; [exact Pz | exact Fz]). assert (Sp : small lim (q_size q)) by (split; [lia | exact Fp]). assert (Sc : small lim (q_children q)) by (split; [lia | exact Fc]).
  unfold repr. rewrite Ez, Ek. cbn [show_entropy]. rewrite ints_of_map. rewrite !(str_small lim) by assumption. unfold line at 1. cbn [Py.obind].
  assert (AK : exists l2, (match ks with [] => Ok "" | _ => line "spawn_key" (tuple_repr lim ks) end) = Ok l2 /\
    forall s, argument "spawn_key" (tuple lim) [] (l2 ++ s) = if (match ks with [] => true | _ => false end) then argument "spawn_key" (tuple lim) [] s else Some (ks, s)).
  { destruct ks as [|k ks]; [now exists ""|]. destruct (tuple_written lim (k :: ks) K ltac:(discriminate)) as (r & E & W). unfold line. rewrite E. cbn [Py.obind].
    eexists. split; [reflexivity|]. intros s. cbv iota. now apply argument_written. }
  destruct AK as (l2 & E2 & A2). rewrite E2. cbn [Py.obind].
  set (l3 := if (q_size q =? 4)%Z then "" else "    pool_size=" ++ dec (N.to_uint (Z.to_N (q_size q))) ++ "," ++ nl).
  set (l4 := if (q_children q =? 0)%Z then "" else "    n_children_spawned=" ++ dec (N.to_uint (Z.to_N (q_children q))) ++ "," ++ nl).
  replace (if (q_size q =? 4)%Z then Ok "" else line "pool_size" _) with (Ok l3) by (unfold l3, line; destruct (q_size q =? 4)%Z; reflexivity). cbn [Py.obind].
  replace (if (q_children q =? 0)%Z then Ok "" else line "n_children_spawned" _) with (Ok l4) by (unfold l4, line; destruct (q_children q =? 0)%Z; reflexivity). cbn [Py.obind].
  eexists. exists (VInt z, map VInt ks, q_size q, q_children q). split; [reflexivity|]. split; [|now rewrite <- Ez, <- Ek].
  unfold read.
  match goal with |- match strip ?p ?t with _ => _ end = _ => replace t with (p ++ ("    entropy=" ++ dec (N.to_uint (Z.to_N z)) ++ "," ++ nl) ++ (l2 ++ l3 ++ l4 ++ ")")) by (rewrite !sapp_assoc; cbn [append]; rewrite ?sapp_assoc; reflexivity) end.
  rewrite strip_app.
  rewrite (argument_written "entropy" _ VNone (dec (N.to_uint (Z.to_N z))) (VInt z)) by (intros s; rewrite integer_dec by (try assumption; reflexivity); reflexivity).
  cbn [then_]. rewrite A2.
  assert (A4 : then_ (argument "n_children_spawned" (integer lim) 0%Z (l4 ++ ")")) (fun c s => match strip ")" s with Some EmptyString => Some (VInt z, map VInt ks, q_size q, c) | _ => None end)
    = Some (VInt z, map VInt ks, q_size q, q_children q)).
  { unfold l4. destruct (Z.eqb_spec (q_children q) 0) as [E|E]; [rewrite E; reflexivity|].
    pose proof (argument_written "n_children_spawned" (integer lim) 0%Z (dec (N.to_uint (Z.to_N (q_children q)))) (q_children q) ")") as W.
    cbn [append] in W |- *. rewrite W by (intros s; now rewrite integer_dec). reflexivity. }
  assert (A3 : argument "pool_size" (integer lim) 4%Z (l3 ++ l4 ++ ")") = Some (q_size q, l4 ++ ")")).
  { unfold l3. destruct (Z.eqb_spec (q_size q) 4) as [E|E].
    - rewrite E. unfold l4. destruct (q_children q =? 0)%Z; reflexivity.
    - apply (argument_written "pool_size" (integer lim) 4%Z (dec (N.to_uint (Z.to_N (q_size q)))) (q_size q)). intros s. now rewrite integer_dec. }
  assert (AK0 : argument "spawn_key" (tuple lim) [] (l3 ++ l4 ++ ")") = Some ([], l3 ++ l4 ++ ")")).
  { unfold l3, l4. destruct (q_size q =? 4)%Z; [|reflexivity]. destruct (q_children q =? 0)%Z; reflexivity. }
  replace (if match ks with [] => true | _ => false end then _ else _) with (Some (ks, l3 ++ l4 ++ ")")) by (rewrite AK0; now destruct ks).
  cbn [then_]. rewrite A3. cbn [then_]. exact A4.
Qed.
(* so the text determines the object *)
Theorem C94_determines : forall lim name q q' z z' ks ks', made lim q -> made lim q' -> q_entropy q = VInt z -> q_entropy q' = VInt z' ->
  q_key q = map VInt ks -> q_key q' = map VInt ks' ->
  Forall (short lim) (z :: q_size q :: q_children q :: ks) -> Forall (short lim) (z' :: q_size q' :: q_children q' :: ks') ->
  repr lim name q = repr lim name q' -> q = q'.
Proof.
  intros lim name q q' z z' ks ks' M M' Ez Ez' Ek Ek' F F' E.
  destruct (C94_eval lim (fun _ => 0%Z) name q z ks M Ez Ek F) as (t & a & T & R & B).
  destruct (C94_eval lim (fun _ => 0%Z) name q' z' ks' M' Ez' Ek' F') as (t' & a' & T' & R' & B'). congruence.
Qed.
(* lines are left out only for defaults *)
Theorem C94_defaults : forall lim name z, short lim z -> (0 <= z)%Z -> forall q, q_entropy q = VInt z -> q_key q = [] -> q_size q = 4%Z -> q_children q = 0%Z ->
  repr lim name q = Some (Ok (name ++ "(" ++ nl ++ "    entropy=" ++ dec (N.to_uint (Z.to_N z)) ++ "," ++ nl ++ ")")).
Proof.
  intros lim name z S P q E1 E2 E3 E4. unfold repr. rewrite E1, E2, E3, E4. cbn [show_entropy ints_of]. rewrite str_small by (split; assumption). unfold line. change (4 =? 4)%Z with true. change (0 =? 0)%Z with true. cbn [Py.obind append].
  rewrite ?sapp_assoc. cbn [append]. rewrite ?sapp_assoc. reflexivity.
Qed.

Lemma made_from lim e run : e <> VNone -> entropy_type e = true -> vcoerce lim e = Py.Ok run -> exists q, made lim q /\ q_entropy q = e /\ q_key q = [] /\ q_size q = 4%Z /\ q_children q = 0%Z.
Proof.
  intros N T E. eexists. split; [apply (made_init lim (fun _ => 0%Z) e [] 4 0); apply (init_intro _ _ _ _ _ _ run []); [exact N | exact T | lia | lia | exact E | reflexivity]|].
  split; [reflexivity|]. split; [reflexivity|]. split; reflexivity.
Qed.
(* whatever the limit on digits, there are objects that cannot be shown *)
Theorem C94_digits_refuted : forall lim name, (lim <> 0)%N -> exists q, made lim q /\ repr lim name q = Some (Raise ValueError).
Proof.
  intros lim name L. set (d := D1 (Nat.iter (N.to_nat lim) D0 Nil)). set (n := N.of_uint d).
  assert (E : N.to_uint n = d) by (unfold n; rewrite DecimalN.Unsigned.to_of; reflexivity).
  assert (D : nb_digits d = S (N.to_nat lim)) by (unfold d; cbn [nb_digits]; f_equal; generalize (N.to_nat lim); intros k; induction k as [|k IH]; [reflexivity|]; change (S (nb_digits (Nat.iter k D0 Nil)) = S k); now rewrite IH).
  assert (W : exists run, vcoerce lim (VInt (Z.of_N n)) = Py.Ok run).
  { cbn [vcoerce]. unfold words_of, int_to_words. replace (Z.of_N n <? 0)%Z with false by lia. destruct (Z.of_N n =? 0)%Z; eexists; reflexivity. }
  destruct W as [run W]. destruct (made_from lim (VInt (Z.of_N n)) run ltac:(discriminate) eq_refl W) as (q & M & E1 & E2 & _). exists q. split; [exact M|].
  unfold repr. rewrite E1, E2. cbn [show_entropy ints_of]. unfold str_of_int at 1. replace (Z.abs_N (Z.of_N n)) with n by lia. rewrite E, D.
  replace (negb (lim =? 0) && (lim <? N.of_nat (S (N.to_nat lim))))%N with true by lia. reflexivity.
Qed.
(* a string is shown without quotes: the text may not be a Python expression *)
Theorem C94_string_refuted : exists q text, made 4300 q /\ q_entropy q = VStr "007" /\ repr 4300 "SeedSequence" q = Some (Ok text) /\ read 4300 "SeedSequence" text = None.
Proof.
  destruct (made_from 4300 (VStr "007") [7%N] ltac:(discriminate) eq_refl eq_refl) as (q & M & E1 & E2 & E3 & E4).
  eexists q, _. split; [exact M|]. split; [exact E1|]. split; [unfold repr; rewrite E1, E2, E3, E4; reflexivity | reflexivity].
Qed.

Example C94_case : exists q, init 4300 (fun _ => 0%Z) (VInt 12345) [VInt 1; VInt 20] 8 3 = Ok q /\ Forall (short 4300) [12345; 8; 3; 1; 20]%Z /\
  repr 4300 "SeedSequence" q = Some (Ok ("SeedSequence(" ++ newline ++ "    entropy=12345," ++ newline ++ "    spawn_key=(1, 20)," ++ newline ++ "    pool_size=8," ++ newline ++ "    n_children_spawned=3," ++ newline ++ ")")) /\
  read 4300 "SeedSequence" ("SeedSequence(" ++ newline ++ "    entropy=12345," ++ newline ++ "    spawn_key=(1,)," ++ newline ++ ")") = Some (VInt 12345, [VInt 1], 4, 0)%Z /\
  str_of_int 0 (-5) = Ok "-5".
Proof.
  eexists. split; [apply (init_intro _ _ _ _ _ _ [12345%N] [1; 20]%N); [discriminate | reflexivity | lia | lia | reflexivity | reflexivity]|].
  split; [repeat (constructor; [right; vm_compute; discriminate|]); constructor|]. split; [reflexivity|]. split; reflexivity.
Qed.

Print Assumptions C94_eval.
Print Assumptions C94_determines.
Print Assumptions C94_defaults.
Print Assumptions C94_digits_refuted.
Print Assumptions C94_string_refuted.
