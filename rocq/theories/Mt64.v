(* MT64: model of src/mt64/mt64.h, mt64.c and mt64.pyx *)
From Verif Require Import Word Arr Buffer32 OptBuffer Py Half.
From Coq Require Import String ZifyBool ZifyNat ZifyN.
Open Scope N_scope.

(* mt64.h:67-72; mti is a C int. has_uint32 and uinteger: Buffer32 *)
Record m64 := M64 { m64_key : list N; m64_pos : Z }.
(* mt64.h:61-65, mt64.c:119-120: x = (u & UM) | (l & LM), then (x >> 1) ^ mag01[x & 1] *)
Definition m64_y (u l : N) : N := N.lor (N.land u 0xFFFFFFFF80000000) (N.land l 0x7fffffff).
Definition m64_a (y : N) : N := N.lxor (N.shiftr y 1) (if N.land y 1 =? 0 then 0 else 0xB5026F5AA96619E9).
Definition m64_tw (u l : N) : N := m64_a (m64_y u l).
(* one assignment of mt[i], reading mt[i], mt[j] and mt[k] *)
Definition m64_set1 (key : list N) (i j k : Z) : option (list N) :=
  match rd key i, rd key j, rd key k with
  | Some a, Some b, Some c => Some (upd key (Z.to_nat i) (N.lxor c (m64_tw a b)))
  | _, _, _ => None
  end.
(* mt64.c:118-129: the first loop (i < NN - MM reads mt[i + MM]), the second
   (i < NN - 1 reads mt[i + (MM - NN)]), then mt[NN - 1] *)
Definition m64_gen_at (key : list N) (i : Z) : option (list N) :=
  if (i <? 156)%Z then m64_set1 key i (i + 1) (i + 156)
  else if (i <? 311)%Z then m64_set1 key i (i + 1) (i + -156)
  else m64_set1 key 311 0 155.
Fixpoint m64_gen_from (n : nat) (i : Z) (key : list N) : option (list N) :=
  match n with
  | O => Some key
  | S n => match m64_gen_at key i with Some key => m64_gen_from n (i + 1) key | None => None end
  end.
(* mt64.c:60-67 mt64_seed: n words more after the word prev, number i first *)
Fixpoint m64_genrand (n : nat) (prev i : N) : list N :=
  match n with
  | O => []
  | S n => let v := wadd 64 (wmul 64 6364136223846793005 (N.lxor prev (N.shiftr prev 62))) i in v :: m64_genrand n v (i + 1)
  end.
Definition m64_init (s : N) : list N := s :: m64_genrand 311 s 1.
(* mt64.c:108-132 mt64_gen: position 313 means "not seeded" *)
Definition m64_gen (s : m64) : option m64 :=
  let key := if (m64_pos s =? 313)%Z then m64_init 5489 else m64_key s in
  match m64_gen_from 312 0 key with Some k => Some (M64 k 0) | None => None end.
(* mt64.h:97-100 *)
Definition m64_temper (x : N) : N :=
  let x := N.lxor x (N.land (N.shiftr x 29) 0x5555555555555555) in
  let x := N.lxor x (N.land (wshl 64 x 17) 0x71D67FFFEDA60000) in
  let x := N.lxor x (N.land (wshl 64 x 37) 0xFFF7EEE000000000) in
  N.lxor x (N.shiftr x 43).
(* mt64.h:89-103 mt64_next *)
Definition m64_next (s : m64) : option (m64 * N) :=
  match (if (312 <=? m64_pos s)%Z then m64_gen s else Some s) with
  | None => None
  | Some s => match rd (m64_key s) (m64_pos s) with
              | Some x => Some (M64 (m64_key s) (m64_pos s + 1), m64_temper x)
              | None => None
              end
  end.
Fixpoint m64_draws (n : nat) (s : m64) : option (m64 * list N) :=
  match n with
  | O => Some (s, [])
  | S n => match m64_next s with
           | None => None
           | Some (s1, v) => match m64_draws n s1 with None => None | Some (s2, vs) => Some (s2, v :: vs) end
           end
  end.
(* mt64.c:80-92 and 93-102: one iteration of a loop of mt64_init_by_array: mult, and
   what is added; then i++ with the wrap *)
Definition m64_mix (mult : N) (x : N) (mt : list N) (i : nat) : list N * nat :=
  let p := nth (i - 1) mt 0 in
  let mt := upd mt i (wadd 64 (N.lxor (nth i mt 0) (wmul 64 (N.lxor p (N.shiftr p 62)) mult)) x) in
  if (312 <=? S i)%nat then (upd mt 0 (nth 311 mt 0), 1%nat) else (mt, S i).
Fixpoint m64_loop1 (n : nat) (key : list N) (mt : list N) (i j : nat) : list N * nat :=
  match n with
  | O => (mt, i)
  | S n => let '(mt, i) := m64_mix 3935559000370003845 (wadd 64 (nth j key 0) (N.of_nat j)) mt i in
           m64_loop1 n key mt i (if (List.length key <=? S j)%nat then 0%nat else S j)
  end.
Fixpoint m64_loop2 (n : nat) (mt : list N) (i : nat) : list N :=
  match n with
  | O => mt
  | S n => let '(mt, i) := m64_mix 2862933555777941757 (wneg 64 (N.of_nat i)) mt i in m64_loop2 n mt i
  end.
(* mt64.c:72-105; mti is left at 312 by mt64_seed *)
Definition m64_init_by_array (key : list N) : m64 :=
  let '(mt, i) := m64_loop1 (Nat.max 312 (List.length key)) key (m64_init 19650218) 1 0 in
  M64 (upd (m64_loop2 311 mt i) 0 0x8000000000000000) 312.
(* mt64.pyx:104-113 _seed_from_seq, _reset_state_variables: words: the 312 generated words *)
Definition m64py := buffered m64.
Definition m64_seed (words : list N) : m64py := Buf (m64_init_by_array words) false 0.

(* mt64.pyx:139-157 *)
Definition m64_get (b : m64py) : pyval :=
  PDict [("bit_generator", PStr "randomgen.mt64.MT64");
         ("state", PDict [("key", PArr 64 (m64_key (core b))); ("pos", PInt (m64_pos (core b)))]);
         ("has_uint32", bool_int (has32 b)); ("uinteger", PInt (Z.of_N (u32 b)))]%string.
(* mt64.pyx:159-172 *)
Definition m64_setst (v : pyval) : M m64py unit := (
  lift (preamble "MT64" "randomgen.mt64.MT64" v);;
  k <- lift (obind (obind (getitem v "state") (fun st => getitem st "key")) (check_arr 312 64));;
  modify (fun b => Buf (M64 k (m64_pos (core b))) (has32 b) (u32 b));;
  p <- lift (obind (obind (getitem v "state") (fun st => getitem st "pos")) to_cint);;
  modify (fun b => Buf (M64 (m64_key (core b)) p) (has32 b) (u32 b));;
  set_half v)%py.
