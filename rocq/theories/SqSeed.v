(* Squares: seed(seed, counter=, key=) with the arguments as Python gives them.
   Model of squares.pyx:432-513. *)
From Verif Require Import Word Buffer32 Py Squares.
From Coq Require Import ZifyBool ZifyNat ZifyN.
Open Scope N_scope.
Ltac Zify.zify_post_hook ::= idtac.

(* an argument: absent (None), an integer, a float with int(x) = z, something int() turns down *)
Inductive arg := ANone | AInt (z : Z) | AFloat (z : Z) | ABad.
(* squares.pyx:460-469 _check_value for an argument that is not None *)
Definition check_value (a : arg) (odd : bool) : outcome N :=
  match a with
  | AInt z | AFloat z =>
      if ((0 <=? z) && (z <? 2 ^ 64))%Z then
        if odd && negb (Z.odd z) then Raise ValueError else Ok (Z.to_N z)
      else Raise ValueError
  | _ => Raise TypeError
  end.
(* conversion to the uint64_t parameter of _seed_from_seq: floats are turned down *)
Definition as_uint64 (a : arg) : outcome N :=
  match a with
  | AInt z => if ((0 <=? z) && (z <? 2 ^ 64))%Z then Ok (Z.to_N z) else Raise OverflowError
  | _ => Raise TypeError
  end.
Definition with_ctr (c : N) (b : sqpy) : sqpy := Buf (SQ (sq_key (core b)) c (sq_v64 (core b))) (has32 b) (u32 b).
Definition with_key (k : N) (b : sqpy) : sqpy := Buf (SQ k (sq_ctr (core b)) (sq_v64 (core b))) (has32 b) (u32 b).
(* squares.pyx:471-474 _seed_from_seq; gk: the key generate_key makes of the sequence *)
Definition sq_from_seq (gk : N) (counter : arg) (b : sqpy) : sqpy * outcome unit :=
  match as_uint64 counter with
  | Raise e => (b, Raise e)
  | Ok c => (with_ctr c (with_key gk b), Ok tt)
  end.
(* squares.pyx:505-513. seq: SeedSequence(seed), an error or the key generate_key makes of it
   (common.pyx:79-87; Squares has only the mode "sequence") *)
Definition sq_pyseed (seq : outcome N) (counter key : arg) (b : sqpy) : sqpy * outcome unit :=
  match (match counter with ANone => Ok (0, AInt 0) | _ => match check_value counter false with Ok c => Ok (c, counter) | Raise e => Raise e end end) with
  | Raise e => (b, Raise e)
  | Ok (c, counter) =>
      let b := with_ctr c b in
      let '(b, r) := match key with
                     | ANone => match seq with Raise e => (b, Raise e) | Ok gk => sq_from_seq gk counter b end
                     | _ => match check_value key true with Raise e => (b, Raise e) | Ok k => (with_key k b, Ok tt) end
                     end in
      match r with Raise e => (b, Raise e) | Ok _ => (reset32 b, Ok tt) end
  end.
(* squares.pyx:432-446 __init__: the memory of a new object is zeroed *)
Definition sq_pynew (seq : outcome N) (counter key variant : arg) : outcome sqpy :=
  match (match counter with ANone => Ok 0 | _ => check_value counter false end) with
  | Raise e => Raise e
  | Ok c =>
      match (match key with ANone => Ok 0 | _ => check_value key true end) with
      | Raise e => Raise e
      | Ok k =>
          match variant with
          | AInt v | AFloat v =>
              if ((v =? 64) || (v =? 32))%Z then
                match sq_pyseed seq counter key (Buf (SQ k c (v =? 64)%Z) false 0) with
                | (b, Ok _) => Ok b
                | (_, Raise e) => Raise e
                end
              else Raise ValueError
          | _ => Raise ValueError
          end
      end
  end.
