(* SeedSequence as seen from Python: the kinds of object accepted as entropy and
   spawn key, the strings, the state property and objects rebuilt from it:
   randomgen/_seed_sequence.pyx. The mixing itself is in SeedSeq.v. *)
From Verif Require Import Word Arr SeedSeq.
From Verif Require Py.
From Coq Require Import String Ascii ZifyBool ZifyNat ZifyN.
Notation Ok := Py.Ok. Notation Raise := Py.Raise. Notation outcome := Py.outcome. Notation obind := Py.obind.
Notation TypeError := Py.TypeError. Notation ValueError := Py.ValueError. Notation OverflowError := Py.OverflowError.
Notation NotImplementedErr := Py.NotImplementedErr.
Notation length := List.length.
Open Scope N_scope.
Ltac Zify.zify_post_hook ::= idtac.

(* ---------------------------------------------------------------- strings *)
(* the value of a digit character for int(): CPython's digit table *)
Definition digit (c : ascii) : option N :=
  let n := N_of_ascii c in
  if (48 <=? n) && (n <=? 57) then Some (n - 48)
  else if (97 <=? n) && (n <=? 122) then Some (n - 87)
  else if (65 <=? n) && (n <=? 90) then Some (n - 55)
  else None.
(* white space that int() drops from the end of an ASCII string *)
Definition space (c : ascii) : bool := let n := N_of_ascii c in (n =? 32) || ((9 <=? n) && (n <=? 13)).
Fixpoint all_space (s : string) : bool :=
  match s with EmptyString => true | String c s => space c && all_space s end.
(* the digits of int(s, base): single underscores between digits; us: the last
   character was an underscore, or there was none yet. cnt counts the digits. *)
Fixpoint digits (base acc cnt : N) (us : bool) (s : string) : option (N * N) :=
  match s with
  | EmptyString => if us then None else Some (acc, cnt)
  | String c s' =>
      match digit c with
      | Some d => if d <? base then digits base (acc * base + d) (cnt + 1) false s' else None
      | None => if Ascii.eqb c "_" then (if us then None else digits base acc cnt true s')
                else if all_space s then (if us then None else Some (acc, cnt)) else None
      end
  end.
(* int(s) for a string which starts with a digit. lim: sys.get_int_max_str_digits(),
   0 for no limit *)
Definition int10 (lim : N) (s : string) : outcome Z :=
  match digits 10 0 0 true s with
  | Some (v, cnt) => if negb (lim =? 0) && (lim <? cnt) then Raise ValueError else Ok (Z.of_N v)
  | None => Raise ValueError
  end.
(* int("0x" ++ s, base=16): one underscore may follow the prefix *)
Definition int16 (s : string) : outcome Z :=
  let s := match s with String c s' => if Ascii.eqb c "_" then s' else s | EmptyString => s end in
  match digits 16 0 0 true s with Some (v, _) => Ok (Z.of_N v) | None => Raise ValueError end.
(* _seed_sequence.pyx:134-140; DECIMAL_RE (line 56) is only matched against the
   beginning of the string. Characters are ASCII. *)
Definition str_int (lim : N) (s : string) : outcome Z :=
  match s with
  | String "0" (String "x" s') => int16 s'
  | String c _ => if (48 <=? N_of_ascii c) && (N_of_ascii c <=? 57) then int10 lim s else Raise ValueError
  | EmptyString => Raise ValueError
  end.

(* ---------------------------------------------------------------- values *)
(* Python objects given as entropy or in a spawn key. VInt: int, bool or numpy
   integer; VArr32: 1-d array of uint32; VSeq: other sized iterables, std telling
   whether the type is list, tuple, range or ndarray; VFloat: float or numpy inexact;
   VOther: objects without len(). Arrays of uint32 with more than one dimension are
   not modelled. *)
Inductive sv := VNone | VInt (z : Z) | VStr (s : string) | VArr32 (l : list N) | VSeq (std : bool) (l : list sv) | VFloat | VOther.

Section Lim.
  Variable lim : N.
  (* _seed_sequence.pyx:69-81 *)
  Definition words_of (z : Z) : outcome (list N) :=
    match int_to_words z with Some l => Ok l | None => Raise ValueError end.
  (* _seed_sequence.pyx:84-152: the first element that fails decides the exception *)
  Fixpoint vcoerce (x : sv) : outcome (list N) :=
    match x with
    | VArr32 l => Ok l
    | VStr s => obind (str_int lim s) words_of
    | VInt z => words_of z
    | VSeq _ l => fold_right (fun v acc => obind (vcoerce v) (fun a => obind acc (fun b => Ok (a ++ b)))) (Ok []) l
    | VFloat | VNone | VOther => Raise TypeError
    end.

  (* _seed_sequence.pxd:5-10 *)
  Record sseq := SQ { q_entropy : sv; q_key : list sv; q_size : Z; q_pool : list N; q_children : Z }.
  (* _seed_sequence.pyx:298-301: the types accepted for entropy *)
  Definition entropy_type (e : sv) : bool :=
    match e with VInt _ | VStr _ | VArr32 _ | VSeq true _ => true | _ => false end.
  (* _seed_sequence.pyx:292-309, 373-398. rb is what randbits returns; secrets.randbits
     gives an integer below 2^(32 * pool_size). pool_size and n_children_spawned are
     Python integers, stored as Py_ssize_t and uint32_t; spawn_key is what tuple()
     makes of the argument. Running out of memory is not modelled. *)
  Definition init (rb : N -> Z) (entropy : sv) (key : list sv) (size children : Z) : outcome sseq :=
    if (size <? 4)%Z then Raise ValueError
    else let entropy := match entropy with VNone => VInt (rb (32 * Z.to_N size)) | e => e end in
    if negb (entropy_type entropy) then Raise TypeError
    else if (2 ^ 63 <=? size)%Z then Raise OverflowError
    else if negb ((0 <=? children) && (children <? 2 ^ 32))%Z then Raise OverflowError
    else obind (vcoerce entropy) (fun run => obind (vcoerce (VSeq true key)) (fun k =>
         let P := Z.to_nat size in
         Ok (SQ entropy key size (mix_entropy P (assemble P run k)) children))).
  (* _seed_sequence.pyx:400-446 *)
  Definition state32 (n : nat) (q : sseq) : list N := generate32 n (q_pool q).
  Definition state64 (n : nat) (q : sseq) : list N := generate64 n (q_pool q).
  (* _seed_sequence.pyx:329-335: none of the four is ever None *)
  Definition state (q : sseq) : sv * list sv * Z * Z := (q_entropy q, q_key q, q_size q, q_children q).
  (* SeedSequence( **state ) *)
  Definition rebuild (rb : N -> Z) (d : sv * list sv * Z * Z) : outcome sseq :=
    let '(e, k, p, c) := d in init rb e k p c.

  Fixpoint omap {A B} (f : A -> outcome B) (l : list A) : outcome (list B) :=
    match l with
    | [] => Ok []
    | a :: l => obind (f a) (fun b => obind (omap f l) (fun r => Ok (b :: r)))
    end.
  (* _seed_sequence.pyx:448-477. now is the content of the entropy object at the time
     of the call: the object is kept by reference, and a list or array may have been
     changed by the caller. The bounds on the child numbers are those of SeedSeq.spawn;
     an exception leaves the object unchanged. *)
  Definition spawn_now (rb : N -> Z) (now : sv) (n : Z) (q : sseq) : outcome (sseq * list sseq) :=
    let from := q_children q in
    if negb ((n <=? 0) || (from + n <=? 2 ^ 31))%Z then Raise OverflowError
    else obind (omap (fun j => init rb now (q_key q ++ [VInt (from + Z.of_nat j)])%Z (q_size q) 0) (seq 0 (Z.to_nat n)))
      (fun kids =>
       if ((0 <=? from + n) && (from + n <? 2 ^ 32))%Z
       then Ok (SQ (q_entropy q) (q_key q) (q_size q) (q_pool q) (from + n), kids)
       else Raise OverflowError).
  Definition spawn (rb : N -> Z) (n : Z) (q : sseq) := spawn_now rb (q_entropy q) n q.
End Lim.

(* SeedlessSeedSequence, _seed_sequence.pyx:232-248; objects are numbered *)
Definition seedless_state (n : Z) : outcome (list N) := Raise NotImplementedErr.
Definition seedless_spawn (self : N) (n : Z) : list N := repeat self (Z.to_nat n).
