(* SeedSequence.__repr__: _seed_sequence.pyx:311-327. Strings are ASCII. *)
From Verif Require Import Word SeedSeq SSeqPy.
From Verif Require Py.
From Coq Require Import String Ascii DecimalString.
Open Scope string_scope.

Definition nl : string := String (ascii_of_N 10) "".
(* str(z) of a Python int; lim: sys.get_int_max_str_digits(), 0 for no limit *)
Definition str_of_int (lim : N) (z : Z) : outcome string :=
  let d := N.to_uint (Z.abs_N z) in
  if (negb (lim =? 0) && (lim <? N.of_nat (Decimal.nb_digits d)))%N then Raise ValueError
  else Ok ((if (z <? 0)%Z then "-" else "") ++ NilZero.string_of_uint d).
(* repr of a tuple of Python ints: (a,) or (a, b, ...) *)
Fixpoint tuple_rest (lim : N) (ks : list Z) : outcome string :=
  match ks with
  | [] => Ok ")"
  | k :: ks => obind (str_of_int lim k) (fun a => obind (tuple_rest lim ks) (fun r => Ok (", " ++ a ++ r)))
  end.
Definition tuple_repr (lim : N) (ks : list Z) : outcome string :=
  match ks with
  | [] => Ok "()"
  | [k] => obind (str_of_int lim k) (fun a => Ok ("(" ++ a ++ ",)"))
  | k :: ks => obind (str_of_int lim k) (fun a => obind (tuple_rest lim ks) (fun r => Ok ("(" ++ a ++ r)))
  end.
(* format of the entropy: a Python int or a str (shown without quotes). None: another object, or a bool or numpy
   integer, whose text is not modelled; spawn keys likewise (None in ints_of) *)
Definition show_entropy (lim : N) (e : sv) : option (outcome string) :=
  match e with VInt z => Some (str_of_int lim z) | VStr s => Some (Ok s) | _ => None end.
Fixpoint ints_of (l : list sv) : option (list Z) :=
  match l with
  | [] => Some []
  | VInt z :: l => option_map (cons z) (ints_of l)
  | _ => None
  end.
(* one line and the line break join puts after it *)
Definition line (key : string) (v : outcome string) : outcome string := obind v (fun a => Ok ("    " ++ key ++ "=" ++ a ++ "," ++ nl)).
(* _seed_sequence.pyx:311-327; name: type(self).__name__, DEFAULT_POOL_SIZE = 4 (line 58) *)
Definition repr (lim : N) (name : string) (q : sseq) : option (outcome string) :=
  match show_entropy lim (q_entropy q), ints_of (q_key q) with
  | Some e, Some ks => Some (
      obind (line "entropy" e) (fun l1 =>
      obind (match ks with [] => Ok "" | _ => line "spawn_key" (tuple_repr lim ks) end) (fun l2 =>
      obind (if (q_size q =? 4)%Z then Ok "" else line "pool_size" (str_of_int lim (q_size q))) (fun l3 =>
      obind (if (q_children q =? 0)%Z then Ok "" else line "n_children_spawned" (str_of_int lim (q_children q))) (fun l4 =>
      Ok (name ++ "(" ++ nl ++ l1 ++ l2 ++ l3 ++ l4 ++ ")"))))))
  | _, _ => None
  end.
