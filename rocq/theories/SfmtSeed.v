(* init_by_array of SFMT and dSFMT: src/sfmt/sfmt.c:376-437 and src/dsfmt/dsfmt.c:546-615
   have the same code for the 32-bit words psfmt32[0 .. size - 1] (idxof is the identity
   on little-endian machines; big-endian is not modelled) *)
From Verif Require Import Word Arr.
From Coq Require Import ZifyBool ZifyNat ZifyN.
Open Scope N_scope.
Ltac Zify.zify_post_hook ::= idtac.

(* sfmt.c:157-169 func1, func2; dsfmt.c:302-314 ini_func1, ini_func2 *)
Definition ini1 (x : N) : N := wmul 32 (N.lxor x (N.shiftr x 27)) 1664525.
Definition ini2 (x : N) : N := wmul 32 (N.lxor x (N.shiftr x 27)) 1566083941.

Section Init.
  Variable size : nat.
  (* size is 624 or 768, so lag is 11 *)
  Definition lag : nat := 11.
  Definition mid : nat := (size - lag) / 2.
  (* sfmt.c:401-406, 410-416 and 419-425: what is added is key_length, init_key[j] + i or i *)
  Definition ini_a (x : N) (i : nat) (l : list N) : list N :=
    let r := ini1 (N.lxor (N.lxor (nth i l 0) (nth ((i + mid) mod size) l 0)) (nth ((i + size - 1) mod size) l 0)) in
    let m := ((i + mid) mod size)%nat in
    let l := upd l m (wadd 32 (nth m l 0) r) in
    let r := wadd 32 r x in
    let m := ((i + mid + lag) mod size)%nat in
    let l := upd l m (wadd 32 (nth m l 0) r) in
    upd l i r.
  (* sfmt.c:428-434 *)
  Definition ini_b (i : nat) (l : list N) : list N :=
    let r := ini2 (wadd 32 (wadd 32 (nth i l 0) (nth ((i + mid) mod size) l 0)) (nth ((i + size - 1) mod size) l 0)) in
    let m := ((i + mid) mod size)%nat in
    let l := upd l m (N.lxor (nth m l 0) r) in
    let r := wsub 32 r (N.of_nat i) in
    let m := ((i + mid + lag) mod size)%nat in
    let l := upd l m (N.lxor (nth m l 0) r) in
    upd l i r.
  (* the loop over the key, then to count *)
  Fixpoint ini_loop1 (key : list N) (i : nat) (l : list N) : list N * nat :=
    match key with
    | [] => (l, i)
    | k :: key => ini_loop1 key ((i + 1) mod size) (ini_a (wadd 32 k (N.of_nat i)) i l)
    end.
  Fixpoint ini_loop2 (n i : nat) (l : list N) : list N * nat :=
    match n with
    | O => (l, i)
    | S n => ini_loop2 n ((i + 1) mod size) (ini_a (N.of_nat i) i l)
    end.
  Fixpoint ini_loop3 (n i : nat) (l : list N) : list N :=
    match n with
    | O => l
    | S n => ini_loop3 n ((i + 1) mod size) (ini_b i l)
    end.
  (* memset to 0x8b; count = max (key_length + 1, size) - 1 *)
  Definition ini_words (key : list N) : list N :=
    let l := ini_a (N.of_nat (List.length key)) 0 (repeat 0x8b8b8b8b size) in
    let '(l, i) := ini_loop1 key 1 l in
    let '(l, i) := ini_loop2 (Nat.max (List.length key + 1) size - 1 - List.length key) i l in
    ini_loop3 size i l.

  Definition wok (l : list N) : Prop := List.length l = size /\ Forall (wf 32) l.
  Lemma upd_wok l i v : wok l -> wf 32 v -> wok (upd l i v).
  Proof. intros [L F] W. split; [now rewrite upd_length|now apply upd_Forall]. Qed.
  Lemma nth_wok l i : wok l -> wf 32 (nth i l 0).
  Proof.
    intros [L F]. destruct (Nat.lt_ge_cases i (List.length l)) as [H|H].
    - apply Forall_forall with (x := nth i l 0) in F; [exact F|]. now apply nth_In.
    - rewrite nth_overflow by exact H. reflexivity.
  Qed.
  Lemma ini_a_wok x i l : wok l -> wok (ini_a x i l).
  Proof.
    intros H. unfold ini_a. cbv zeta.
    apply upd_wok; [|apply wf_wadd]. apply upd_wok; [|apply wf_wadd]. apply upd_wok; [exact H|apply wf_wadd].
  Qed.
  Lemma ini2_wf x : wf 32 (ini2 x).
  Proof. apply wf_wmul. Qed.
  Lemma ini_b_wok i l : wok l -> wok (ini_b i l).
  Proof.
    intros H. unfold ini_b. cbv zeta.
    match goal with |- context[ini2 ?e] => set (r := ini2 e); assert (R : wf 32 r) by apply ini2_wf end.
    assert (H1 : wok (upd l ((i + mid) mod size) (N.lxor (nth ((i + mid) mod size) l 0) r))).
    { apply upd_wok; [exact H|]. apply wf_lxor; [now apply nth_wok|exact R]. }
    apply upd_wok; [|apply wf_wsub]. apply upd_wok; [exact H1|]. apply wf_lxor; [now apply nth_wok|apply wf_wsub].
  Qed.
  Lemma ini_loop1_wok key : forall i l, wok l -> wok (fst (ini_loop1 key i l)).
  Proof. induction key as [|k key IH]; intros i l H; [exact H|]. cbn [ini_loop1]. apply IH. now apply ini_a_wok. Qed.
  Lemma ini_loop2_wok n : forall i l, wok l -> wok (fst (ini_loop2 n i l)).
  Proof. induction n as [|n IH]; intros i l H; [exact H|]. cbn [ini_loop2]. apply IH. now apply ini_a_wok. Qed.
  Lemma ini_loop3_wok n : forall i l, wok l -> wok (ini_loop3 n i l).
  Proof. induction n as [|n IH]; intros i l H; [exact H|]. cbn [ini_loop3]. apply IH. now apply ini_b_wok. Qed.
  Lemma ini_words_wok key : wok (ini_words key).
  Proof.
    unfold ini_words.
    assert (H0 : wok (repeat 0x8b8b8b8b size)).
    { split; [apply repeat_length|]. apply Forall_forall. intros x Hx. apply repeat_spec in Hx. subst x. reflexivity. }
    pose proof (ini_loop1_wok key 1 _ (ini_a_wok (N.of_nat (List.length key)) 0 _ H0)) as H1. destruct (ini_loop1 key 1 _) as [l i]. cbn [fst] in H1.
    pose proof (ini_loop2_wok (Nat.max (List.length key + 1) size - 1 - List.length key) i l H1) as H2. destruct (ini_loop2 _ i l) as [l2 i2]. cbn [fst] in H2.
    now apply ini_loop3_wok.
  Qed.
End Init.
