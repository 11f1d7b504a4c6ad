(* The 32-bit half buffer shared by all 64-bit generators.

   The same code appears in src/pcg64/pcg64-v2.h:117-139, lcg128mix.h:87-96,
   src/sfc/sfc.h, src/aesctr/aesctr.h, src/speck-128/speck-128.h,
   src/philox/philox.h and src/threefry/threefry.h (64-bit word sizes),
   src/squares/squares.h, src/efiix64/efiix64.h, src/jsf/jsf.h (64 bit),
   src/lxm/lxm.h, src/romu/romu.h, src/mt64/mt64.h, src/sfmt/sfmt.h,
   src/xoshiro256/xoshiro256.h, src/xoshiro512/xoshiro512.h,
   src/xoroshiro128/xoroshiro128.h, src/xorshift1024/xorshift1024.h:

     if (state->has_uint32) { state->has_uint32 = 0; return state->uinteger; }
     next = next64(state);
     state->has_uint32 = 1;
     state->uinteger = (uint32_t)(next >> 32);
     return (uint32_t)(next & 0xffffffff);                                   *)
From Verif Require Import Word.
From Coq Require Import ZifyBool ZifyNat ZifyN.
Open Scope N_scope.

Record buffered (A : Type) := Buf { core : A; has32 : bool; u32 : N }.
Arguments Buf {A}. Arguments core {A}. Arguments has32 {A}. Arguments u32 {A}.

Section Buffered.
  Context {A : Type} (next64 : A -> A * N).

  Definition b_next64 (b : buffered A) : buffered A * N :=
    let '(a, v) := next64 (core b) in (Buf a (has32 b) (u32 b), v).

  Definition b_next32 (b : buffered A) : buffered A * N :=
    if has32 b then (Buf (core b) false (u32 b), u32 b)
    else let '(a, v) := next64 (core b) in
         (Buf a true (trunc 32 (N.shiftr v 32)), N.land v 0xffffffff).

  (* A user's requests, in any order *)
  Inductive req := R32 | R64.
  Fixpoint run (rs : list req) (b : buffered A) : buffered A * list N :=
    match rs with
    | [] => (b, [])
    | r :: rs =>
        let '(b1, v) := match r with R32 => b_next32 b | R64 => b_next64 b end in
        let '(b2, vs) := run rs b1 in (b2, v :: vs)
    end.

  (* ---- specification: the sequence of 64-bit values, and a queue holding at
     most one half that was not handed out yet ---- *)
  Fixpoint raws (n : nat) (a : A) : A * list N :=
    match n with
    | O => (a, [])
    | S n => let '(a1, v) := next64 a in let '(a2, vs) := raws n a1 in (a2, v :: vs)
    end.
  (* Answers to the requests, from the list of 64-bit values [vs] and the half
     [q] left over; None if vs is too short. The third component is what is
     left of vs. *)
  Fixpoint spec (rs : list req) (q : option N) (vs : list N) : option (option N * list N * list N) :=
    match rs with
    | [] => Some (q, [], vs)
    | R64 :: rs =>
        match vs with
        | [] => None
        | v :: vs => match spec rs q vs with
                     | Some (q', out, rest) => Some (q', v :: out, rest)
                     | None => None end
        end
    | R32 :: rs =>
        match q with
        | Some h => match spec rs None vs with
                    | Some (q', out, rest) => Some (q', h :: out, rest)
                    | None => None end
        | None =>
            match vs with
            | [] => None
            | v :: vs => match spec rs (Some (v / 2 ^ 32)) vs with
                         | Some (q', out, rest) => Some (q', v mod 2 ^ 32 :: out, rest)
                         | None => None end
            end
        end
    end.

  Definition queue (b : buffered A) : option N := if has32 b then Some (u32 b) else None.

  (* Inv: the well-formed core states (all words in range) *)
  Variable Inv : A -> Prop.
  Hypothesis next64_wf : forall a, Inv a -> Inv (fst (next64 a)) /\ wf 64 (snd (next64 a)).

  Lemma run_spec rs : forall b, Inv (core b) ->
    exists n,
      let '(a', vs) := raws n (core b) in
      spec rs (queue b) vs = Some (queue (fst (run rs b)), snd (run rs b), [])
      /\ core (fst (run rs b)) = a'.
  Proof.
    induction rs as [|r rs IH]; intros b Hi.
    - exists 0%nat. cbn. split; reflexivity.
    - destruct r; cbn [run].
      + unfold b_next32. destruct (has32 b) eqn:Hh.
        * destruct (IH (Buf (core b) false (u32 b)) Hi) as [n Hn]. exists n.
          cbn [core] in Hn.
          destruct (raws n (core b)) as [a' vs]. destruct Hn as [Hs Hc].
          destruct (run rs _) as [b2 out]. cbn [fst snd] in *.
          unfold queue at 1. rewrite Hh. cbn [spec].
          unfold queue at 1 in Hs. cbn [has32] in Hs. rewrite Hs.
          split; [reflexivity|exact Hc].
        * destruct (next64 (core b)) as [a v] eqn:Hv.
          pose proof (next64_wf (core b) Hi) as Hw. rewrite Hv in Hw. destruct Hw as [Hia Hw].
          cbn [fst snd] in Hia, Hw.
          destruct (IH (Buf a true (trunc 32 (N.shiftr v 32))) Hia) as [n Hn].
          exists (S n). cbn [raws core]. rewrite Hv. cbn [core] in Hn.
          destruct (raws n a) as [a' vs]. destruct Hn as [Hs Hc].
          destruct (run rs _) as [b2 out]. cbn [fst snd] in *.
          unfold queue at 1. rewrite Hh. cbn [spec].
          unfold queue at 1 in Hs. cbn [has32 u32] in Hs.
          assert (E1 : trunc 32 (N.shiftr v 32) = v / 2 ^ 32).
          { rewrite N.shiftr_div_pow2. unfold trunc. apply N.mod_small.
            apply N.div_lt_upper_bound; [discriminate|].
            unfold wf in Hw. exact Hw. }
          rewrite E1 in Hs. rewrite Hs.
          assert (E2 : N.land v 0xffffffff = v mod 2 ^ 32) by apply (N.land_ones v 32).
          rewrite E2. split; [reflexivity|exact Hc].
      + unfold b_next64. destruct (next64 (core b)) as [a v] eqn:Hv.
        pose proof (next64_wf (core b) Hi) as Hw. rewrite Hv in Hw. destruct Hw as [Hia Hw].
        cbn [fst snd] in Hia, Hw.
        destruct (IH (Buf a (has32 b) (u32 b)) Hia) as [n Hn].
        exists (S n). cbn [raws core]. rewrite Hv. cbn [core] in Hn.
        destruct (raws n a) as [a' vs]. destruct Hn as [Hs Hc].
        destruct (run rs _) as [b2 out]. cbn [fst snd] in *.
        change (queue (Buf a (has32 b) (u32 b))) with (queue b) in Hs.
        cbn [spec]. destruct (queue b) eqn:Hq; rewrite Hs; (split; [reflexivity|exact Hc]).
  Qed.

  (* two 32-bit draws from an empty buffer are the low and the high half of
     one 64-bit draw, and leave the generator exactly where it left it *)
  Lemma two32_is_64 b : Inv (core b) -> has32 b = false ->
    let '(b1, lo) := b_next32 b in
    let '(b2, hi) := b_next32 b1 in
    let '(b3, v) := b_next64 b in
    lo + 2 ^ 32 * hi = v /\ core b2 = core b3 /\ has32 b2 = false.
  Proof.
    intros Hi Hh. unfold b_next32 at 1. rewrite Hh. unfold b_next64.
    destruct (next64 (core b)) as [a v] eqn:Hv.
    pose proof (next64_wf (core b) Hi) as Hw. rewrite Hv in Hw. destruct Hw as [_ Hw].
    cbn [fst snd] in Hw.
    unfold b_next32. cbn [has32 core u32]. split; [|split; reflexivity].
    rewrite N.shiftr_div_pow2.
    unfold trunc. rewrite (N.mod_small (v / 2 ^ 32)).
    - change 0xffffffff with (N.ones 32). rewrite N.land_ones.
      pose proof (N.div_mod v (2 ^ 32) (pow2_nz 32)). lia.
    - apply N.div_lt_upper_bound; [discriminate|exact Hw].
  Qed.
End Buffered.

(* _reset_state_variables of the Python classes *)
Definition reset32 {A} (b : buffered A) : buffered A := Buf (core b) false 0.
(* one 64-bit draw, i.e. what one element of random_raw costs *)
Definition draw {A} (next64 : A -> A * N) (b : buffered A) : buffered A := fst (b_next64 next64 b).
Definition cstep {A} (next64 : A -> A * N) (a : A) : A := fst (next64 a).
Lemma draw_eq {A} (next64 : A -> A * N) b : draw next64 b = Buf (cstep next64 (core b)) (has32 b) (u32 b).
Proof. unfold draw, b_next64, cstep. destruct (next64 (core b)); reflexivity. Qed.
Lemma draws_core {A} (next64 : A -> A * N) n b :
  N.iter n (draw next64) b = Buf (N.iter n (cstep next64) (core b)) (has32 b) (u32 b).
Proof.
  induction n as [|n IH] using N.peano_ind; [destruct b; reflexivity|].
  rewrite !N.iter_succ, IH, draw_eq. reflexivity.
Qed.
(* distinct states stay distinct under a draw if the core update is injective *)
Lemma draw_inj {A} (next64 : A -> A * N) (Inv : A -> Prop) b c :
  (forall x y, Inv x -> Inv y -> cstep next64 x = cstep next64 y -> x = y) ->
  Inv (core b) -> Inv (core c) -> draw next64 b = draw next64 c -> b = c.
Proof.
  intros Hi Hb Hc. rewrite !draw_eq. destruct b, c; cbn in *. intros [= E -> ->].
  f_equal. now apply Hi.
Qed.
