(* The 32-bit half buffer (see Buffer32.v) over a generator whose step can go out of
   bounds: None *)
From Verif Require Import Word Buffer32.
From Coq Require Import ZifyBool ZifyNat ZifyN.
Open Scope N_scope.

Section Opt.
  Context {A : Type} (next64 : A -> option (A * N)).
  (* mt64.h:105-117 and sfmt.h, with the same code *)
  Definition ob_next64 (b : buffered A) : option (buffered A * N) :=
    match next64 (core b) with Some (a, v) => Some (Buf a (has32 b) (u32 b), v) | None => None end.
  Definition ob_next32 (b : buffered A) : option (buffered A * N) :=
    if has32 b then Some (Buf (core b) false (u32 b), u32 b)
    else match next64 (core b) with
         | Some (a, v) => Some (Buf a true (trunc 32 (N.shiftr v 32)), N.land v 0xffffffff)
         | None => None
         end.
  Fixpoint orun (rs : list req) (b : buffered A) : option (buffered A * list N) :=
    match rs with
    | [] => Some (b, [])
    | r :: rs =>
        match (match r with R32 => ob_next32 b | R64 => ob_next64 b end) with
        | None => None
        | Some (b1, v) => match orun rs b1 with None => None | Some (b2, vs) => Some (b2, v :: vs) end
        end
    end.
  (* the step where it is defined *)
  Definition tot (a : A) : A * N := match next64 a with Some r => r | None => (a, 0) end.
  Variable Inv : A -> Prop.
  Hypothesis step_ok : forall a, Inv a -> exists a' v, next64 a = Some (a', v) /\ Inv a' /\ wf 64 v.
  Lemma tot_ok a : Inv a -> Inv (fst (tot a)) /\ wf 64 (snd (tot a)).
  Proof. intros H. unfold tot. destruct (step_ok a H) as (a' & v & -> & H1 & H2). split; assumption. Qed.
  Lemma orun_run rs : forall b, Inv (core b) -> orun rs b = Some (run tot rs b) /\ Inv (core (fst (run tot rs b))).
  Proof.
    induction rs as [|r rs IH]; intros b H; [split; [reflexivity|exact H]|]. cbn [orun run].
    destruct (step_ok (core b) H) as (a' & v & E & H1 & _).
    assert (T : tot (core b) = (a', v)) by (unfold tot; now rewrite E).
    destruct r.
    - unfold ob_next32, b_next32. destruct (has32 b).
      + destruct (IH (Buf (core b) false (u32 b)) H) as [-> I]. destruct (run tot rs _). split; [reflexivity|exact I].
      + rewrite E, T. destruct (IH (Buf a' true (trunc 32 (N.shiftr v 32))) H1) as [-> I]. destruct (run tot rs _). split; [reflexivity|exact I].
    - unfold ob_next64, b_next64. rewrite E, T. destruct (IH (Buf a' (has32 b) (u32 b)) H1) as [-> I]. destruct (run tot rs _). split; [reflexivity|exact I].
  Qed.
End Opt.
