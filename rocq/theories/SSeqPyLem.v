(* Lemmas on SSeqPy.v *)
From Verif Require Import Word Arr SeedSeq SeedSeqFacts SSeqPy.
From Verif Require Py.
From Coq Require Import String Ascii Decimal DecimalN DecimalString Hexadecimal HexadecimalN HexadecimalString ZifyBool ZifyNat ZifyN.
Notation length := List.length.
Open Scope N_scope.
Ltac Zify.zify_post_hook ::= idtac.

(* ---------------------------------------------------------------- strings *)
Notation dec := DecimalString.NilEmpty.string_of_uint.
Notation hex := HexadecimalString.NilEmpty.string_of_uint.
(* the value of digits after a prefix with value acc *)
Fixpoint dval (acc : N) (d : Decimal.uint) : N :=
  match d with
  | Decimal.Nil => acc
  | Decimal.D0 d => dval (10 * acc) d | Decimal.D1 d => dval (10 * acc + 1) d | Decimal.D2 d => dval (10 * acc + 2) d
  | Decimal.D3 d => dval (10 * acc + 3) d | Decimal.D4 d => dval (10 * acc + 4) d | Decimal.D5 d => dval (10 * acc + 5) d
  | Decimal.D6 d => dval (10 * acc + 6) d | Decimal.D7 d => dval (10 * acc + 7) d | Decimal.D8 d => dval (10 * acc + 8) d
  | Decimal.D9 d => dval (10 * acc + 9) d
  end.
Fixpoint hval (acc : N) (d : Hexadecimal.uint) : N :=
  match d with
  | Nil => acc
  | D0 d => hval (16 * acc) d | D1 d => hval (16 * acc + 1) d | D2 d => hval (16 * acc + 2) d | D3 d => hval (16 * acc + 3) d
  | D4 d => hval (16 * acc + 4) d | D5 d => hval (16 * acc + 5) d | D6 d => hval (16 * acc + 6) d | D7 d => hval (16 * acc + 7) d
  | D8 d => hval (16 * acc + 8) d | D9 d => hval (16 * acc + 9) d | Da d => hval (16 * acc + 10) d | Db d => hval (16 * acc + 11) d
  | Dc d => hval (16 * acc + 12) d | Dd d => hval (16 * acc + 13) d | De d => hval (16 * acc + 14) d | Df d => hval (16 * acc + 15) d
  end.
Lemma dval_pos d : forall p, Npos (Pos.of_uint_acc d p) = dval (Npos p) d.
Proof. induction d; intros p; cbn [Pos.of_uint_acc dval]; try reflexivity; rewrite IHd; f_equal; lia. Qed.
Lemma dval_of_uint d : N.of_uint d = dval 0 d.
Proof. unfold N.of_uint. induction d; cbn [Pos.of_uint dval]; try reflexivity; try exact IHd; apply dval_pos. Qed.
Lemma hval_pos d : forall p, Npos (Pos.of_hex_uint_acc d p) = hval (Npos p) d.
Proof. induction d; intros p; cbn [Pos.of_hex_uint_acc hval]; try reflexivity; rewrite IHd; f_equal; lia. Qed.
Lemma hval_of_uint d : N.of_hex_uint d = hval 0 d.
Proof. unfold N.of_hex_uint. induction d; cbn [Pos.of_hex_uint hval]; try reflexivity; try exact IHd; apply hval_pos. Qed.

Ltac step IH := cbn [DecimalString.NilEmpty.string_of_uint HexadecimalString.NilEmpty.string_of_uint digits dval hval Decimal.nb_digits];
  match goal with |- context [digit ?c] => let v := eval vm_compute in (digit c) in change (digit c) with v end; cbv iota beta;
  match goal with |- context [?a <? ?b] => change (a <? b) with true end; cbv iota; rewrite IH; f_equal; f_equal; [f_equal; lia|lia].
Lemma digits_dec d : forall acc cnt us, (us = true -> d <> Decimal.Nil) ->
  digits 10 acc cnt us (dec d) = Some (dval acc d, cnt + N.of_nat (Decimal.nb_digits d)).
Proof.
  assert (G : forall acc cnt, digits 10 acc cnt false (dec d) = Some (dval acc d, cnt + N.of_nat (Decimal.nb_digits d))).
  { induction d; intros acc cnt; [cbn [DecimalString.NilEmpty.string_of_uint digits dval Decimal.nb_digits]; now rewrite N.add_0_r| step IHd..]. }
  intros acc cnt us H. destruct us; [|apply G]. rewrite <- G. destruct d; [now specialize (H eq_refl)|reflexivity..].
Qed.
Lemma digits_hex d : forall acc cnt us, (us = true -> d <> Nil) ->
  exists c, digits 16 acc cnt us (hex d) = Some (hval acc d, c).
Proof.
  assert (G : forall acc cnt, digits 16 acc cnt false (hex d) = Some (hval acc d, cnt + N.of_nat (Hexadecimal.nb_digits d))).
  { induction d; intros acc cnt; [cbn [HexadecimalString.NilEmpty.string_of_uint digits hval Hexadecimal.nb_digits]; now rewrite N.add_0_r| cbn [Hexadecimal.nb_digits]; step IHd..]. }
  intros acc cnt us H. eexists. destruct us; [|apply G]. rewrite <- G. destruct d; [now specialize (H eq_refl)|reflexivity..].
Qed.
Lemma int10_dec lim d : d <> Decimal.Nil -> lim = 0 \/ N.of_nat (Decimal.nb_digits d) <= lim ->
  int10 lim (dec d) = Py.Ok (Z.of_N (N.of_uint d)).
Proof.
  intros H L. unfold int10. rewrite digits_dec by (intros _; exact H). rewrite dval_of_uint, N.add_0_l.
  destruct (N.eqb_spec lim 0); [reflexivity|]. cbn [negb andb]. replace (lim <? N.of_nat (Decimal.nb_digits d)) with false by lia. reflexivity.
Qed.
Lemma int16_hex d : d <> Nil -> int16 (hex d) = Py.Ok (Z.of_N (N.of_hex_uint d)).
Proof.
  intros H. rewrite hval_of_uint. destruct (digits_hex d 0 0 true ltac:(intros _; exact H)) as [c E]. unfold int16.
  replace (match hex d with String c0 s' => if (c0 =? "_")%char then s' else hex d | EmptyString => hex d end) with (hex d) by (destruct d; reflexivity).
  now rewrite E.
Qed.
Lemma str_int_nonneg lim s z : str_int lim s = Py.Ok z -> (0 <= z)%Z.
Proof.
  assert (T : forall s, int10 lim s = Py.Ok z -> (0 <= z)%Z).
  { intros s0. unfold int10. destruct (digits _ _ _ _ _) as [[v c]|]; [|discriminate]. destruct (_ && _); [discriminate|]. intros [= <-]. lia. }
  assert (X : forall s, int16 s = Py.Ok z -> (0 <= z)%Z).
  { intros s0. unfold int16. destruct (digits _ _ _ _ _) as [[v c]|]; [|discriminate]. intros [= <-]. lia. }
  intros H. assert (D : (exists s', str_int lim s = int16 s') \/ str_int lim s = int10 lim s \/ str_int lim s = Py.Raise Py.ValueError).
  { destruct s as [|c s]; [now right; right|].
    assert (E : (exists s', String c s = String "0" (String "x" s')) \/
               str_int lim (String c s) = if (48 <=? N_of_ascii c) && (N_of_ascii c <=? 57) then int10 lim (String c s) else Py.Raise Py.ValueError).
    { destruct c as [[] [] [] [] [] [] [] []]; try (right; reflexivity).
      destruct s as [|[[] [] [] [] [] [] [] []] s]; try (right; reflexivity). left. now exists s. }
    destruct E as [[s' E]|E]; [left; exists s'; now rewrite E|]. rewrite E. destruct (_ && _); auto. }
  destruct D as [[s' D]|[D|D]]; rewrite D in H; [eapply X, H|eapply T, H|discriminate].
Qed.

(* ---------------------------------------------------------------- objects *)
Lemma vcoerce_cons lim b v l : vcoerce lim (VSeq b (v :: l)) =
  Py.obind (vcoerce lim v) (fun a => Py.obind (vcoerce lim (VSeq b l)) (fun r => Py.Ok (a ++ r))).
Proof. reflexivity. Qed.
Lemma vcoerce_app lim b l1 : forall l2, vcoerce lim (VSeq b (l1 ++ l2)) =
  Py.obind (vcoerce lim (VSeq b l1)) (fun a => Py.obind (vcoerce lim (VSeq b l2)) (fun r => Py.Ok (a ++ r))).
Proof.
  induction l1 as [|v l1 IH]; intros l2.
  - cbn. destruct (fold_right _ _ l2); reflexivity.
  - change ((v :: l1) ++ l2) with (v :: (l1 ++ l2)). rewrite (vcoerce_cons lim b v (l1 ++ l2)), (vcoerce_cons lim b v l1), IH. destruct (vcoerce lim v) as [a|]; [|reflexivity]. cbn [Py.obind].
    destruct (vcoerce lim (VSeq b l1)) as [r|]; [|reflexivity]. cbn [Py.obind].
    destruct (vcoerce lim (VSeq b l2)); [|reflexivity]. cbn [Py.obind]. now rewrite app_assoc.
Qed.
Lemma vcoerce_std lim b b' l : vcoerce lim (VSeq b l) = vcoerce lim (VSeq b' l).
Proof. reflexivity. Qed.

(* how a constructed object looks *)
Lemma init_inv lim rb e k P c q : init lim rb e k P c = Py.Ok q ->
  q_key q = k /\ q_size q = P /\ q_children q = c /\ (4 <= P < 2 ^ 63)%Z /\ (0 <= c < 2 ^ 32)%Z /\
  q_entropy q = match e with VNone => VInt (rb (32 * Z.to_N P)) | e => e end /\ q_entropy q <> VNone /\
  exists run key, vcoerce lim (q_entropy q) = Py.Ok run /\ vcoerce lim (VSeq true k) = Py.Ok key /\
    q_pool q = mix_entropy (Z.to_nat P) (assemble (Z.to_nat P) run key).
Proof.
  unfold init. destruct (Z.ltb_spec P 4); [discriminate|]. cbv zeta.
  set (e' := match e with VNone => _ | _ => _ end).
  destruct (entropy_type e') eqn:T; cbn [negb]; [|discriminate].
  destruct (Z.leb_spec (2 ^ 63) P); [discriminate|].
  destruct ((0 <=? c) && (c <? 2 ^ 32))%Z eqn:C; cbn [negb]; [|discriminate].
  destruct (vcoerce lim e') as [run|] eqn:Er; [|discriminate]. cbn [Py.obind].
  destruct (vcoerce lim (VSeq true k)) as [key|] eqn:Ek; [|discriminate]. cbn [Py.obind].
  intros [= <-]. cbn [q_key q_size q_children q_entropy q_pool].
  apply andb_prop in C. destruct C as [C1 C2].
  split; [reflexivity|]. split; [reflexivity|]. split; [reflexivity|]. split; [lia|]. split; [lia|]. split; [reflexivity|].
  split; [intros X; rewrite X in T; discriminate|]. exists run, key. auto.
Qed.
Lemma init_intro lim rb e k P c run key : e <> VNone -> entropy_type e = true -> (4 <= P < 2 ^ 63)%Z -> (0 <= c < 2 ^ 32)%Z ->
  vcoerce lim e = Py.Ok run -> vcoerce lim (VSeq true k) = Py.Ok key ->
  init lim rb e k P c = Py.Ok (SQ e k P (mix_entropy (Z.to_nat P) (assemble (Z.to_nat P) run key)) c).
Proof.
  intros N T HP HC Er Ek. unfold init. replace (P <? 4)%Z with false by lia. cbv zeta.
  replace (match e with VNone => VInt (rb (32 * Z.to_N P)) | _ => e end) with e by (destruct e; congruence).
  rewrite T. cbn [negb]. replace (2 ^ 63 <=? P)%Z with false by lia.
  replace ((0 <=? c) && (c <? 2 ^ 32))%Z with true by lia. cbn [negb]. rewrite Er. cbn [Py.obind]. rewrite Ek. reflexivity.
Qed.
(* the invariant of every object: what its attributes say is what its pool holds *)
Definition good (lim : N) (q : sseq) : Prop :=
  q_entropy q <> VNone /\ entropy_type (q_entropy q) = true /\ (4 <= q_size q < 2 ^ 63)%Z /\ (0 <= q_children q < 2 ^ 32)%Z /\
  exists run key, vcoerce lim (q_entropy q) = Py.Ok run /\ vcoerce lim (VSeq true (q_key q)) = Py.Ok key /\
    q_pool q = mix_entropy (Z.to_nat (q_size q)) (assemble (Z.to_nat (q_size q)) run key).
Lemma init_good lim rb e k P c q : init lim rb e k P c = Py.Ok q -> good lim q.
Proof.
  intros H. pose proof (init_inv _ _ _ _ _ _ _ H) as (Ek & Ep & Ec & HP & HC & Ee & Ne & run & key & R & K & Q).
  unfold good. rewrite Ek, Ep, Ec. split; [exact Ne|]. split.
  - unfold init in H. destruct (_ <? _)%Z; [discriminate|]. cbv zeta in H. rewrite <- Ee in H.
    destruct (entropy_type (q_entropy q)); [reflexivity|discriminate].
  - split; [exact HP|]. split; [exact HC|]. exists run, key. auto.
Qed.
Lemma good_rebuild lim rb q : good lim q -> rebuild lim rb (state q) = Py.Ok q.
Proof.
  intros (N & T & HP & HC & run & key & R & K & Q). unfold rebuild, state.
  rewrite (init_intro lim rb _ _ _ _ run key N T HP HC R K), <- Q. now destruct q.
Qed.
Lemma omap_in {A B} (f : A -> Py.outcome B) l : forall r, omap f l = Py.Ok r -> forall b, In b r -> exists a, In a l /\ f a = Py.Ok b.
Proof.
  induction l as [|a l IH]; cbn [omap]; intros r.
  - intros [= <-] b [].
  - destruct (f a) as [b0|] eqn:E; [|discriminate]. cbn [Py.obind]. destruct (omap f l) as [r'|] eqn:E'; [|discriminate]. cbn [Py.obind].
    intros [= <-] b [<-|Hb]; [exists a; split; [now left|exact E]|]. destruct (IH _ eq_refl _ Hb) as [x [Hx Fx]]. exists x. split; [now right|exact Fx].
Qed.
Lemma spawn_good lim rb now n q q' kids : good lim q -> spawn_now lim rb now n q = Py.Ok (q', kids) ->
  good lim q' /\ Forall (good lim) kids.
Proof.
  intros G. unfold spawn_now. destruct (_ || _); cbn [negb]; [|discriminate].
  destruct (omap _ _) as [ks|] eqn:E; [|discriminate]. cbn [Py.obind]. destruct (_ && _)%Z eqn:B; [|discriminate]. intros [= <- <-].
  split.
  - destruct G as (N & T & HP & HC & W). unfold good. cbn [q_entropy q_key q_size q_children q_pool].
    apply andb_prop in B. destruct B. split; [exact N|]. split; [exact T|]. split; [exact HP|]. split; [lia|exact W].
  - apply Forall_forall. intros b Hb. destruct (omap_in _ _ _ E _ Hb) as [j [_ Ej]]. eapply init_good, Ej.
Qed.
