(* The parameters of the constructors of the counter-based classes: rounds of SPECK128 and ChaCha,
   number and width of Philox and ThreeFry, mode, numpy_seed, and with them the whole construction. *)
From Verif Require Import Word MultiWord Common Py Convert Ctr CtrPy SeedPy PcgInit.
From Coq Require Import String ZifyBool ZifyNat ZifyN.
Open Scope N_scope.
Ltac Zify.zify_post_hook ::= idtac.

(* The objects passed as rounds, number or width: integers (booleans and NumPy's too), the finite float
   n/d, nan, plus or minus infinity, None. Other objects are not modelled. *)
Inductive par := QInt (z : Z) | QRat (n : Z) (d : positive) | QNan | QInf (neg : bool) | QNone.
(* the assignment to a C int; cyf: whether Cython's conversion takes floats (before Cython 3 it
   called int()) *)
Definition par_cint (cyf : bool) (a : par) : outcome Z :=
  match a with
  | QInt z => to_cint (PInt z)
  | QRat n d => if cyf then to_cint (PInt (Z.quot n (Zpos d))) else Raise TypeError
  | QNan => if cyf then Raise ValueError else Raise TypeError
  | QInf _ => if cyf then Raise OverflowError else Raise TypeError
  | QNone => Raise TypeError
  end.
(* a == z *)
Definition par_eqb (a : par) (z : Z) : bool :=
  match a with QInt x => (x =? z)%Z | QRat n d => (n =? z * Zpos d)%Z | QNan | QInf _ | QNone => false end.
(* chacha.pyx:143-145: rounds % 2 != 0 or rounds <= 0. The remainder of an infinity is nan. *)
Definition chacha_rounds (cyf : bool) (a : par) : outcome Z :=
  match a with
  | QInt z => if negb (z mod 2 =? 0)%Z || (z <=? 0)%Z then Raise ValueError else par_cint cyf a
  | QRat n d => if negb (n mod (2 * Zpos d) =? 0)%Z || (n <=? 0)%Z then Raise ValueError else par_cint cyf a
  | QNan | QInf _ => Raise ValueError
  | QNone => Raise TypeError
  end.
(* speck128.pyx:155-157: rounds <= 0 or rounds > 34 or int(rounds) != rounds; int(nan): ValueError.
   SPECK_MAX_ROUNDS: speck128.pyx:10, speck-128-common.h:10 *)
Definition speck_rounds (a : par) : outcome Z :=
  match a with
  | QInt z => if (z <=? 0)%Z || (34 <? z)%Z then Raise ValueError else Ok z
  | QRat n d => if (n <=? 0)%Z || (34 * Zpos d <? n)%Z || negb (Z.quot n (Zpos d) * Zpos d =? n)%Z then Raise ValueError else Ok (Z.quot n (Zpos d))
  | QNan | QInf _ => Raise ValueError
  | QNone => Raise TypeError
  end.
(* philox.pyx:181-188, threefry.pyx:159-166: number not in (2, 4), width not in (32, 64), then
   self.n = number; self.w = width (C ints) *)
Definition ctr_variant (cyf : bool) (number width : par) : outcome (Z * Z) :=
  if negb (par_eqb number 2 || par_eqb number 4) then Raise ValueError
  else if negb (par_eqb width 32 || par_eqb width 64) then Raise ValueError
  else obind (par_cint cyf number) (fun n => obind (par_cint cyf width) (fun w => Ok (n, w))).

(* which constructor, and its own parameters *)
Inductive cnew := NAes | NSpeck (rounds : par) | NChaCha (rounds : par) | NCtr (c : cls) (number width : par).
(* the kind of generator and the rounds (0 where there is no such field): aes.pyx:131-137,
   speck128.pyx:150-157, chacha.pyx:139-145, philox.pyx:178-188, threefry.pyx:158-166 *)
Definition cnew_kind (cyf : bool) (x : cnew) : outcome (ckind * Z) :=
  match x with
  | NAes => Ok (KAes, 0%Z)
  | NSpeck r => obind (speck_rounds r) (fun r => Ok (KSpeck, r))
  | NChaCha r => obind (chacha_rounds cyf r) (fun r => Ok (KChaCha, r))
  | NCtr c n w => obind (ctr_variant cyf n w) (fun v => Ok (KCtr c (Z.to_N (fst v)) (Z.to_N (snd v)), 0%Z))
  end.
(* Class(seed, counter=, key=, ..., mode=): common.pyx:32-51, the parameters, then seed(seed, counter,
   key); the result: the kind, the rounds, the key and the counter. numpy_seed: Philox only (False for
   the others). The functions installed are those of (n, w), philox.pyx:194-215 (setup_generator). *)
Definition cnew_make (cyf : bool) (x : cnew) (numpy_seed : bool) (mode : mode_arg) (words : N -> list N) (seeded : bool) (counter key : objv) : option (outcome (ckind * Z * N * N)) :=
  match init_mode (match x with NCtr Philox _ _ => modes_two | _ => modes_one end) numpy_seed mode with
  | Raise e => Some (Raise e)
  | Ok numpy =>
      match cnew_kind cyf x with
      | Raise e => Some (Raise e)
      | Ok (k, r) => option_map (fun o => obind o (fun kc => Ok (k, r, fst kc, snd kc))) (py_seed k numpy words seeded counter key)
      end
  end.
