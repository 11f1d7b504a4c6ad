(* SFC64: model of src/sfc/sfc.h, src/sfc/sfc.c and sfc.pyx *)
From Verif Require Import Word Arr Buffer32 Py Half.
From Coq Require Import String ZifyBool ZifyNat ZifyN.
Open Scope N_scope.

(* sfc.h:34-42 without has_uint32, uinteger *)
Record sfc := Sfc { sf_a : N; sf_b : N; sf_c : N; sf_w : N; sf_k : N }.
(* sfc.h:62-70 next64 *)
Definition sfc_next (s : sfc) : sfc * N :=
  let out := wadd 64 (wadd 64 (sf_a s) (sf_b s)) (sf_w s) in
  (Sfc (N.lxor (sf_b s) (N.shiftr (sf_b s) 11))
       (wadd 64 (sf_c s) (wshl 64 (sf_c s) 3))
       (wadd 64 (rotl 64 (sf_c s) 24) out)
       (wadd 64 (sf_w s) (sf_k s))
       (sf_k s), out).
Notation sfcpy := (buffered sfc).
(* sfc.c:6-15; seed: the first three words of the array *)
Definition sfc_seed (s0 s1 s2 w k : N) : sfc :=
  N.iter 12 (cstep sfc_next) (Sfc s0 s1 s2 w k).
(* The words _seed_from_seq asks the seed sequence for, sfc.pyx:148 *)
Definition sfc_words (w k : option N) : N :=
  3 + (match k with None => 1 | Some _ => 0 end) + (match w with None => 1 | Some _ => 0 end).
(* sfc.pyx:144-156; st: the words the seed sequence gave, w and k: the
   constructor arguments (None: Python's None). None: an index error, which
   does not happen with sfc_words w k words. *)
Definition sfc_seed_from (w k : option N) (st : list N) : option sfcpy :=
  match st with
  | s0 :: s1 :: s2 :: rest =>
      match (match w with Some w => Some (w, rest) | None => match rest with x :: r => Some (x, r) | [] => None end end) with
      | None => None
      | Some (w', rest) =>
          match (match k with Some k => Some k | None => match rest with x :: _ => Some (N.lor x 1) | [] => None end end) with
          | None => None
          | Some k' => Some (Buf (sfc_seed s0 s1 s2 w' k') false 0)
          end
      end
  | _ => None
  end.
(* sfc.pyx:158-161; an error if w or k is not 1 *)
Definition sfc_seed_numpy (w k : option N) (st : list N) : outcome sfcpy :=
  match w, k with
  | Some 1, Some 1 => match sfc_seed_from w k st with Some b => Ok b | None => Raise IndexError end
  | _, _ => Raise ValueError
  end.

(* sfc.pyx:333-352 *)
Definition sfc_get (b : sfcpy) : pyval :=
  let s := core b in
  PDict [("bit_generator", PStr "randomgen.sfc.SFC64");
         ("state", PDict [("a", PInt (Z.of_N (sf_a s))); ("b", PInt (Z.of_N (sf_b s))); ("c", PInt (Z.of_N (sf_c s)));
                          ("w", PInt (Z.of_N (sf_w s))); ("k", PInt (Z.of_N (sf_k s)))]);
         ("has_uint32", bool_int (has32 b));
         ("uinteger", PInt (Z.of_N (u32 b)))]%string.
(* sfc.pyx:354-368 *)
Definition sfc_set (v : pyval) : M sfcpy unit := (
  lift (preamble "SFC64" "randomgen.sfc.SFC64" v);;
  x <- lift (obind (getitem v "state") (fun st => obind (getitem st "a") (to_uint 64)));;
  modify (fun b => let s := core b in set_core (Sfc x (sf_b s) (sf_c s) (sf_w s) (sf_k s)) b);;
  x <- lift (obind (getitem v "state") (fun st => obind (getitem st "b") (to_uint 64)));;
  modify (fun b => let s := core b in set_core (Sfc (sf_a s) x (sf_c s) (sf_w s) (sf_k s)) b);;
  x <- lift (obind (getitem v "state") (fun st => obind (getitem st "c") (to_uint 64)));;
  modify (fun b => let s := core b in set_core (Sfc (sf_a s) (sf_b s) x (sf_w s) (sf_k s)) b);;
  x <- lift (obind (getitem v "state") (fun st => obind (getitem st "w") (to_uint 64)));;
  modify (fun b => let s := core b in set_core (Sfc (sf_a s) (sf_b s) (sf_c s) x (sf_k s)) b);;
  x <- lift (obind (getitem v "state") (fun st => obind (getitem st "k") (to_uint 64)));;
  modify (fun b => let s := core b in set_core (Sfc (sf_a s) (sf_b s) (sf_c s) (sf_w s) x) b);;
  set_half v)%py.

(* ---------------------------------------------------------- Weyl increments *)
(* sfc.pyx:24-36 choosek: the loop runs i = 63, 62, ..., 63-k+1 with cnt = 1,
   2, ...; n is the number of rounds left *)
Fixpoint choose_loop (n : nat) (i cnt out : N) : N :=
  match n with
  | O => out
  | S n => choose_loop n (i - 1) (cnt + 1) (wmul 64 out i / cnt)
  end.
Definition choosek (k : N) : N :=
  let k := wsub 64 k 1 in
  let k := if 32 <? k then wsub 64 63 k else k in
  choose_loop (N.to_nat k) 63 1 1.

(* sfc.pyx:181-194: the loop of generate_bits; fill: the number of bits left to
   fill, cnt: buffer_cnt. Fuel counts the rounds; None when it runs out (the
   loop draws until enough different positions came up). *)
Fixpoint fill_loop (fuel : nat) (fill cnt : N) (buffer candidate : N) (s : sfc) : option (N * sfc) :=
  if fill =? 0 then Some (candidate, s) else
  match fuel with
  | O => None
  | S fuel =>
      let '(cnt, buffer, s) := if cnt =? 0 then let '(s', v) := sfc_next s in (8, v, s') else (cnt, buffer, s) in
      let next_bit := N.land buffer 0x3f in
      let buffer := N.shiftr buffer 8 in
      if N.testbit candidate next_bit then fill_loop fuel fill (cnt - 1) buffer candidate s
      else fill_loop fuel (fill - 1) (cnt - 1) buffer (N.lor candidate (N.shiftl 1 next_bit)) s
  end.
(* sfc.pyx:163-198; bits in 0..64 here (an int8_t in the code) *)
Definition generate_bits (fuel : nat) (bits : N) (b : sfcpy) : option (N * sfcpy) :=
  let inverse := negb (bits <=? 32) in
  let to_fill := if inverse then 65 - bits else bits in
  match fill_loop fuel (to_fill - 1) 0 0 1 (core b) with
  | None => None
  | Some (c, s) => Some (if inverse then N.lor (wnot 64 c) 1 else c, set_core s b)
  end.

(* sfc.pyx:296-300: walk over the cumulative counts; nz is nonzero_bits so far.
   Counts are uint64 and are decremented once the class is chosen. *)
Fixpoint pick (val nz : N) (cum bits : list N) : N * list N :=
  match cum, bits with
  | c :: cum, b :: bits =>
      let nz := if (val <? c) && (nz =? 0) then b else nz in
      let c := if 0 <? nz then wsub 64 c 1 else c in
      let '(r, l) := pick val nz cum bits in (r, c :: l)
  | _, _ => (nz, cum)
  end.
Section Weyl.
  (* gen.integers(0, total, endpoint=True, dtype=np.uint64) of numpy's
     Generator on this bit generator: any function of total and the state *)
  Variable integers : N -> sfcpy -> N * sfcpy.
  Variable fuel : nat.
  Fixpoint mem (x : N) (l : list N) : bool := match l with [] => false | y :: l => (x =? y) || mem x l end.
  (* sfc.pyx:302-307; tries limits the rounds of "while True" *)
  Fixpoint new_value (tries : nat) (nz : N) (values : list N) (b : sfcpy) : option (N * sfcpy) :=
    match tries with
    | O => None
    | S tries =>
        match generate_bits fuel nz b with
        | None => None
        | Some (c, b) => if mem c values then new_value tries nz values b else Some (c, b)
        end
    end.
  (* sfc.pyx:293-308: n values; out is the values so far, latest first (it is
     also the set "values") *)
  Fixpoint weyl_loop (n : nat) (bits cum : list N) (out : list N) (b : sfcpy) : option (list N * sfcpy) :=
    match n with
    | O => Some (rev out, b)
    | S n =>
        let '(v, b) := integers (last cum 0) b in
        let '(nz, cum) := pick v 0 cum bits in
        match new_value fuel nz out b with
        | None => None
        | Some (c, b) => weyl_loop n bits cum (c :: out) b
        end
    end.
  (* sfc.pyx:278, 282-285 *)
  Definition bit_classes (lo hi : N) : list N := map N.of_nat (seq (N.to_nat lo) (N.to_nat (hi + 1 - lo))).
  Fixpoint cumulate (acc : N) (l : list N) : list N :=
    match l with [] => [] | x :: l => let a := wadd 64 x acc in a :: cumulate a l end.
  (* sfc.pyx:260-262: a Python integer *)
  Definition available (classes : list N) : N := fold_right N.add 0 (map choosek classes).
  (* sfc.pyx:200-308 weyl_increments (the warning at 268 has no effect here).
     The inner option is None when fuel ran out. *)
  Definition weyl_increments (n max_bits : Z) (min_bits : option Z) (b : sfcpy) : outcome (option (list N * sfcpy)) :=
    let lo := match min_bits with Some m => m | None => max_bits end in
    if (n <? 1)%Z then Raise ValueError
    else if negb ((1 <=? max_bits) && (max_bits <=? 64))%Z then Raise ValueError
    else if negb ((1 <=? lo) && (lo <=? max_bits))%Z then Raise ValueError
    else let classes := bit_classes (Z.to_N lo) (Z.to_N max_bits) in
         if (Z.of_N (available classes) <? n)%Z then Raise ValueError
         else Ok (weyl_loop (Z.to_nat n) classes (cumulate 0 (map choosek classes)) [] b).
End Weyl.
