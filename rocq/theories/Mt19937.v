(* MT19937: model of src/mt19937/mt19937.h, mt19937.c, mt19937-jump.c and mt19937.pyx *)
From Verif Require Import Word Arr Py.
From Coq Require Import String ZifyBool ZifyNat ZifyN.
Open Scope N_scope.

(* mt19937.h:8-18; pos is a C int *)
Record mt := MT { mt_key : list N; mt_pos : Z }.
(* mt19937.c:100-101: y = (u & UPPER_MASK) | (l & LOWER_MASK), then
   (y >> 1) ^ (-(y & 1) & MATRIX_A) *)
Definition mt_y (u l : N) : N := N.lor (N.land u 0x80000000) (N.land l 0x7fffffff).
Definition mt_a (y : N) : N := N.lxor (N.shiftr y 1) (if N.land y 1 =? 0 then 0 else 0x9908b0df).
Definition mt_tw (u l : N) : N := mt_a (mt_y u l).
(* one assignment of key[i], reading key[i], key[j] and key[k] *)
Definition mt_set1 (key : list N) (i j k : Z) : option (list N) :=
  match rd key i, rd key j, rd key k with
  | Some a, Some b, Some c => Some (upd key (Z.to_nat i) (N.lxor c (mt_tw a b)))
  | _, _, _ => None
  end.
(* mt19937.c:93-113 mt19937_gen: the first loop (i < N - M reads key[i + M]), the
   second (i < N - 1 reads key[i + (M - N)]), then key[N - 1] *)
Definition mt_gen_at (key : list N) (i : Z) : option (list N) :=
  if (i <? 227)%Z then mt_set1 key i (i + 1) (i + 397)
  else if (i <? 623)%Z then mt_set1 key i (i + 1) (i + -227)
  else mt_set1 key 623 0 396.
Fixpoint mt_gen_from (n : nat) (i : Z) (key : list N) : option (list N) :=
  match n with
  | O => Some key
  | S n => match mt_gen_at key i with Some key => mt_gen_from n (i + 1) key | None => None end
  end.
Definition mt_gen (s : mt) : option mt :=
  match mt_gen_from 624 0 (mt_key s) with Some k => Some (MT k 0) | None => None end.
(* mt19937.h:33-37 *)
Definition mt_temper (y : N) : N :=
  let y := N.lxor y (N.shiftr y 11) in
  let y := N.lxor y (N.land (wshl 32 y 7) 0x9d2c5680) in
  let y := N.lxor y (N.land (wshl 32 y 15) 0xefc60000) in
  N.lxor y (N.shiftr y 18).
(* mt19937.h:24-40 mt19937_next *)
Definition mt_next (s : mt) : option (mt * N) :=
  match (if (mt_pos s =? 624)%Z then mt_gen s else Some s) with
  | None => None
  | Some s => match rd (mt_key s) (mt_pos s) with
              | Some y => Some (MT (mt_key s) (mt_pos s + 1), mt_temper y)
              | None => None
              end
  end.
(* mt19937.h:45-47: lr: the left call, whose value is the high half, is made first *)
Definition mt_next64 (lr : bool) (s : mt) : option (mt * N) :=
  match mt_next s with
  | None => None
  | Some (s1, u) => match mt_next s1 with
                    | None => None
                    | Some (s2, v) => Some (s2, if lr then N.lor (wshl 64 u 32) v else N.lor (wshl 64 v 32) u)
                    end
  end.
Fixpoint mt_draws (n : nat) (s : mt) : option (mt * list N) :=
  match n with
  | O => Some (s, [])
  | S n => match mt_next s with
           | None => None
           | Some (s1, v) => match mt_draws n s1 with None => None | Some (s2, vs) => Some (s2, v :: vs) end
           end
  end.

(* mt19937.c:20-40 init_genrand: n words more after the word prev, number i first *)
Fixpoint mt_genrand (n : nat) (prev i : N) : list N :=
  match n with
  | O => []
  | S n => let v := wadd 32 (wmul 32 1812433253 (N.lxor prev (N.shiftr prev 30))) i in v :: mt_genrand n v (i + 1)
  end.
Definition mt_init_genrand (s : N) : list N := s :: mt_genrand 623 s 1.
(* mt19937.c:58-76 and 77-88: one iteration of a loop of init_by_array: mult, and
   what is added; then i++ with the wrap *)
Definition mt_mix (mult : N) (x : N) (mt : list N) (i : nat) : list N * nat :=
  let p := nth (i - 1) mt 0 in
  let mt := upd mt i (wadd 32 (N.lxor (nth i mt 0) (wmul 32 (N.lxor p (N.shiftr p 30)) mult)) x) in
  if (624 <=? S i)%nat then (upd mt 0 (nth 623 mt 0), 1%nat) else (mt, S i).
Fixpoint mt_loop1 (n : nat) (key : list N) (mt : list N) (i j : nat) : list N * nat :=
  match n with
  | O => (mt, i)
  | S n => let '(mt, i) := mt_mix 1664525 (wadd 32 (nth j key 0) (N.of_nat j)) mt i in
           mt_loop1 n key mt i (if (List.length key <=? S j)%nat then 0%nat else S j)
  end.
Fixpoint mt_loop2 (n : nat) (mt : list N) (i : nat) : list N :=
  match n with
  | O => mt
  | S n => let '(mt, i) := mt_mix 1566083941 (wneg 32 (N.of_nat i)) mt i in mt_loop2 n mt i
  end.
(* mt19937.c:47-91 *)
Definition mt_init_by_array (key : list N) : mt :=
  let '(mt, i) := mt_loop1 (Nat.max 624 (List.length key)) key (mt_init_genrand 19650218) 1 0 in
  MT (upd (mt_loop2 623 mt i) 0 0x80000000) 624.
(* mt19937.pyx:132-136 _seed_from_seq: words: the 624 generated words *)
Definition mt_seed (words : list N) : mt := mt_init_by_array words.
(* mt19937.pyx:138-145; the loop variable is 623 at the end *)
Definition mt_seed_numpy (words : list N) : mt := MT (upd words 0 0x80000000) 623.

(* mt19937-jump.c:50-75 gen_next *)
Definition mt_gen_next (s : mt) : option mt :=
  let num := mt_pos s in
  if (num <? 227)%Z then match mt_set1 (mt_key s) num (num + 1) (num + 397) with Some k => Some (MT k (num + 1)) | None => None end
  else if (num <? 623)%Z then match mt_set1 (mt_key s) num (num + 1) (num + -227) with Some k => Some (MT k (num + 1)) | None => None end
  else if (num =? 623)%Z then match mt_set1 (mt_key s) 623 0 396 with Some k => Some (MT k 0) | None => None end
  else Some s.
(* mt19937-jump.c:77-99 add_state: the three loops of either branch run i from
   0 to 623; an index i + pt is reduced by N from i = N - pt on *)
Definition mt_wrap (i pt : Z) : Z := (if i <? 624 - pt then i + pt else i + (pt - 624))%Z.
Fixpoint mt_add_from (n : nat) (i : Z) (pt1 pt2 : Z) (k1 k2 : list N) : option (list N) :=
  match n with
  | O => Some k1
  | S n => match rd k1 (mt_wrap i pt1), rd k2 (mt_wrap i pt2) with
           | Some a, Some b => mt_add_from n (i + 1) pt1 pt2 (upd k1 (Z.to_nat (mt_wrap i pt1)) (N.lxor a b)) k2
           | _, _ => None
           end
  end.
Definition mt_add (s t : mt) : option mt :=
  match mt_add_from 624 0 (mt_pos s) (mt_pos t) (mt_key s) (mt_key t) with Some k => Some (MT k (mt_pos s)) | None => None end.
(* mt19937-jump.c:102-137 horner1: pf as its coefficients, highest first. The
   coefficients after the leading 1; temp. None at the top level: no coefficient
   is 1 (the search for it runs off the array) or an index out of bounds. *)
Fixpoint mt_horner (cs : list bool) (st temp : mt) : option mt :=
  match cs with
  | [] => Some temp
  | c :: cs =>
      match mt_gen_next temp with
      | None => None
      | Some temp => match (if c then mt_add temp st else Some temp) with
                     | None => None
                     | Some temp => mt_horner cs st temp
                     end
      end
  end.
Fixpoint lead (cs : list bool) : option (list bool) :=
  match cs with
  | [] => None
  | true :: cs => Some cs
  | false :: cs => lead cs
  end.
(* mt19937-jump.c:139-159 mt19937_jump_state; jump_str is the list of coefficients *)
Definition mt_jump_state (jump_str : list bool) (s : mt) : option mt :=
  match lead jump_str with
  | None => None
  | Some cs => let s := if (624 <=? mt_pos s)%Z then MT (mt_key s) 0 else s in mt_horner cs s s
  end.
(* mt19937.c:134-166 mt19937_jump_n: the polynomials in the order 144, 140, 136,
   132, 128. fuel: iterations of the while loop; None: not enough. *)
Record mt_polys := Polys { poly_144 : list bool; poly_140 : list bool; poly_136 : list bool; poly_132 : list bool; poly_128 : list bool }.
Fixpoint mt_jump_n (ps : mt_polys) (fuel : nat) (remaining : Z) (s : mt) : option mt :=
  if (remaining <=? 0)%Z then Some s else
  match fuel with
  | O => None
  | S fuel =>
      let '(p, k) := (if 65536 <=? remaining then (poly_144 ps, 65536)
                      else if 4096 <=? remaining then (poly_140 ps, 4096)
                      else if 256 <=? remaining then (poly_136 ps, 256)
                      else if 16 <=? remaining then (poly_132 ps, 16)
                      else (poly_128 ps, 1))%Z in
      match mt_jump_state p s with Some s => mt_jump_n ps fuel (remaining - k) s | None => None end
  end.

(* mt19937.pyx:279-295 *)
Definition mt_get (s : mt) : pyval :=
  PDict [("bit_generator", PStr "randomgen.mt19937.MT19937");
         ("state", PDict [("key", PArr 32 (mt_key s)); ("pos", PInt (mt_pos s))])]%string.
(* mt19937.pyx:297-313; the legacy tuple form is rewritten to the dictionary
   before anything else (PcgInit.v) *)
Definition mt_setst (v : pyval) : M mt unit := (
  lift (preamble "MT19937" "randomgen.mt19937.MT19937" v);;
  st <- lift (getitem v "state");;
  k <- lift (obind (getitem st "key") (check_arr 624 32));;
  modify (fun s => MT k (mt_pos s));;
  p <- lift (obind (getitem st "pos") to_cint);;
  modify (fun s => MT (mt_key s) p))%py.
