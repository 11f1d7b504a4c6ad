(* Bounded integers: src/distributions/distributions.orig.h and distributions.orig.c, the copy of the
   distribution code that is kept in the tree (setup.py does not compile it; the installed package gets
   these functions from NumPy's npyrandom).
   A bit generator is a type of states St with next_uint32 and next_uint64. A loop runs on fuel, the number
   of times its body is run at most: None is a loop that is still running. *)
From Verif Require Import Word.
Ltac Zify.zify_post_hook ::= idtac.
Open Scope N_scope.

(* while (bad x) x = d(); *)
Fixpoint redraw {S A} (fuel : nat) (d : S -> S * A) (bad : A -> bool) (x : A) (s : S) : option (S * A) :=
  if bad x then match fuel with O => None | Datatypes.S n => let '(s1, y) := d s in redraw n d bad y s1 end else Some (s, x).

(* distributions.orig.h:93-102 gen_mask *)
Definition gen_mask (max : N) : N :=
  let mask := max in
  let mask := N.lor mask (wshr mask 1) in
  let mask := N.lor mask (wshr mask 2) in
  let mask := N.lor mask (wshr mask 4) in
  let mask := N.lor mask (wshr mask 8) in
  let mask := N.lor mask (wshr mask 16) in
  N.lor mask (wshr mask 32).

(* distributions.orig.h:133-187: bounded_masked_uint64 and buffered_bounded_masked_uint32, uint16, uint8,
   which differ in the source of words d *)
Definition masked {S} (fuel : nat) (d : S -> S * N) (rng mask : N) (s : S) : option (S * N) :=
  let d := fun s => let '(s1, x) := d s in (s1, N.land x mask) in
  let '(s1, val) := d s in redraw fuel d (fun val => rng <? val) val s1.

(* distributions.orig.c:1242-1348: buffered_bounded_lemire_uint32, uint16, uint8 for w = 32, 16, 8; the
   products of two w-bit words fit in 2 w bits *)
Definition lemire {S} (w : N) (fuel : nat) (d : S -> S * N) (rng : N) (s : S) : option (S * N) :=
  let rng_excl := wadd w rng 1 in
  let dm := fun s => let '(s1, x) := d s in (s1, wmul (2 * w) x rng_excl) in
  let leftover := trunc w in
  let '(s1, m) := dm s in
  let found := if leftover m <? rng_excl
               then let threshold := wneg w rng_excl mod rng_excl in redraw fuel dm (fun m => leftover m <? threshold) m s1
               else Some (s1, m) in
  option_map (fun r => (fst r, wshr (snd r) w)) found.

(* distributions.orig.c:1220-1233: the upper half of a 64 by 64 bit product from 32-bit halves *)
Definition umulh (x r : N) : N :=
  let x0 := N.land x 0xFFFFFFFF in
  let x1 := wshr x 32 in
  let r0 := N.land r 0xFFFFFFFF in
  let r1 := wshr r 32 in
  let w0 := wmul 64 x0 r0 in
  let t := wadd 64 (wmul 64 x1 r0) (wshr w0 32) in
  let w1 := N.land t 0xFFFFFFFF in
  let w2 := wshr t 32 in
  let w1 := wadd 64 w1 (wmul 64 x0 r1) in
  wadd 64 (wadd 64 (wmul 64 x1 r1) w2) (wshr w1 32).
(* distributions.orig.c:1155-1238 bounded_lemire_uint64: with __uint128_t (i128 = true), and without *)
Definition lemire64 {S} (i128 : bool) (fuel : nat) (d : S -> S * N) (rng : N) (s : S) : option (S * N) :=
  let rng_excl := wadd 64 rng 1 in
  let threshold := wsub 64 0xFFFFFFFFFFFFFFFF rng mod rng_excl in
  if i128 then
    let dm := fun s => let '(s1, x) := d s in (s1, wmul 128 x rng_excl) in
    let leftover := fun m => N.land m 0xFFFFFFFFFFFFFFFF in
    let '(s1, m) := dm s in
    let found := if leftover m <? rng_excl then redraw fuel dm (fun m => leftover m <? threshold) m s1 else Some (s1, m) in
    option_map (fun r => (fst r, wshr (snd r) 64)) found
  else
    let leftover := fun x => wmul 64 x rng_excl in
    let '(s1, x) := d s in
    let found := if leftover x <? rng_excl then redraw fuel d (fun x => leftover x <? threshold) x s1 else Some (s1, x) in
    option_map (fun r => (fst r, umulh (snd r) rng_excl)) found.

(* A word source with a 32-bit buffer: the state, *bcnt and *buf *)
Record bufst (St : Type) := { b_st : St; b_cnt : N; b_buf : N }.
Arguments b_st {St}. Arguments b_cnt {St}. Arguments b_buf {St}.
(* distributions.orig.h:105-130 buffered_uint16 (bits = 16), buffered_uint8 (bits = 8), and the buffer of
   buffered_bounded_bool (194-202, bits = 1) *)
Definition buffered {St} (bits : N) (next32 : St -> St * N) (b : bufst St) : bufst St * N :=
  let b := if b_cnt b =? 0 then let '(s1, x) := next32 (b_st b) in {| b_st := s1; b_cnt := 32 / bits - 1; b_buf := x |}
           else {| b_st := b_st b; b_cnt := b_cnt b - 1; b_buf := wshr (b_buf b) bits |} in
  (b, trunc bits (b_buf b)).
(* a new buffer: int bcnt = 0; uint32_t buf = 0; *)
Definition fresh {St} (s : St) : bufst St := {| b_st := s; b_cnt := 0; b_buf := 0 |}.

Section Bounded.
Context {St : Type}.
Variables (next32 next64 : St -> St * N) (i128 : bool) (fuel : nat).
Definition plus {S} (w off : N) (r : option (S * N)) : option (S * N) := option_map (fun r => (fst r, wadd w off (snd r))) r.
(* distributions.orig.c:1127-1152 random_interval *)
Definition random_interval (max : N) (s : St) : option (St * N) :=
  if max =? 0 then Some (s, 0)
  else let mask := gen_mask max in
       if max <=? 0xffffffff then masked fuel next32 max mask s else masked fuel next64 max mask s.
(* distributions.orig.c:1354-1385 random_bounded_uint64 *)
Definition random_bounded_uint64 (off rng mask : N) (use_masked : bool) (s : St) : option (St * N) :=
  if rng =? 0 then Some (s, off)
  else if rng <=? 0xFFFFFFFF then
    if rng =? 0xFFFFFFFF then plus 64 off (Some (next32 s))
    else if use_masked then plus 64 off (masked fuel next32 (trunc 32 rng) (trunc 32 mask) s)
    else plus 64 off (lemire 32 fuel next32 (trunc 32 rng) s)
  else if rng =? 0xFFFFFFFFFFFFFFFF then plus 64 off (Some (next64 s))
  else if use_masked then plus 64 off (masked fuel next64 rng mask s)
  else plus 64 off (lemire64 i128 fuel next64 rng s).
(* distributions.orig.c:1391-1412, 1418-1435, 1441-1458: random_buffered_bounded_uint32 (w = 32,
   d = next_uint32), uint16 and uint8 (d = buffered_uint16, buffered_uint8) *)
Definition random_bounded {S} (w : N) (d : S -> S * N) (off rng mask : N) (use_masked : bool) (s : S) : option (S * N) :=
  if rng =? 0 then Some (s, off)
  else if rng =? 2 ^ w - 1 then plus w off (Some (d s))
  else if use_masked then plus w off (masked fuel d rng mask s)
  else plus w off (lemire w fuel d rng s).
(* distributions.orig.h:189-203 buffered_bounded_bool *)
Definition bounded_bool (off rng : N) (b : bufst St) : bufst St * N :=
  if rng =? 0 then (b, off) else buffered 1 next32 b.

(* for (i = 0; i < cnt; i++) out[i] = f(); *)
Fixpoint filled {S} (f : S -> option (S * N)) (cnt : nat) (s : S) : option (S * list N) :=
  match cnt with
  | O => Some (s, [])
  | Datatypes.S n => match f s with
                     | None => None
                     | Some (s1, x) => match filled f n s1 with None => None | Some (s2, l) => Some (s2, x :: l) end
                     end
  end.
(* distributions.orig.c:1471-1530 random_bounded_uint64_fill *)
Definition bounded_uint64_fill (off rng : N) (cnt : nat) (use_masked : bool) (s : St) : option (St * list N) :=
  if rng =? 0 then filled (fun s => Some (s, off)) cnt s
  else if rng <=? 0xFFFFFFFF then
    if rng =? 0xFFFFFFFF then filled (fun s => plus 64 off (Some (next32 s))) cnt s
    else if use_masked then let mask := gen_mask rng in filled (fun s => plus 64 off (masked fuel next32 (trunc 32 rng) (trunc 32 mask) s)) cnt s
    else filled (fun s => plus 64 off (lemire 32 fuel next32 (trunc 32 rng) s)) cnt s
  else if rng =? 0xFFFFFFFFFFFFFFFF then filled (fun s => plus 64 off (Some (next64 s))) cnt s
  else if use_masked then let mask := gen_mask rng in filled (fun s => plus 64 off (masked fuel next64 rng mask s)) cnt s
  else filled (fun s => plus 64 off (lemire64 i128 fuel next64 rng s)) cnt s.
(* distributions.orig.c:1536-1568, 1574-1606, 1612-1643: random_bounded_uint32_fill, uint16_fill, uint8_fill;
   the state of a buffer is local to the call *)
Definition bounded_fill {S} (w : N) (d : S -> S * N) (off rng : N) (cnt : nat) (use_masked : bool) (s : S) : option (S * list N) :=
  if rng =? 0 then filled (fun s => Some (s, off)) cnt s
  else if rng =? 2 ^ w - 1 then filled (fun s => plus w off (Some (d s))) cnt s
  else if use_masked then let mask := trunc w (gen_mask rng) in filled (fun s => plus w off (masked fuel d rng mask s)) cnt s
  else filled (fun s => plus w off (lemire w fuel d rng s)) cnt s.
Definition local {A} (f : bufst St -> option (bufst St * A)) (s : St) : option (St * A) := option_map (fun r => (b_st (fst r), snd r)) (f (fresh s)).
Definition bounded_uint32_fill (off rng : N) (cnt : nat) (use_masked : bool) (s : St) : option (St * list N) := bounded_fill 32 next32 off rng cnt use_masked s.
Definition bounded_uint16_fill (off rng : N) (cnt : nat) (use_masked : bool) (s : St) : option (St * list N) :=
  local (bounded_fill 16 (buffered 16 next32) off rng cnt use_masked) s.
Definition bounded_uint8_fill (off rng : N) (cnt : nat) (use_masked : bool) (s : St) : option (St * list N) :=
  local (bounded_fill 8 (buffered 8 next32) off rng cnt use_masked) s.
(* distributions.orig.c:1649-1660 random_bounded_bool_fill *)
Definition bounded_bool_fill (off rng : N) (cnt : nat) (s : St) : option (St * list N) :=
  local (filled (fun b => Some (bounded_bool off rng b)) cnt) s.
End Bounded.

(* distributions.orig.c:1662-1679 random_multinomial. binom p dn: the value random_binomial returns for the
   probability pix[p] / remaining_p and dn trials; mnix: the array, d: its length. Some (mnix, dn): the
   array afterwards; None: write outside the array. *)
Fixpoint set_nth (l : list Z) (i : nat) (v : Z) : list Z := match l, i with [], _ => [] | _ :: l, O => v :: l | x :: l, Datatypes.S i => x :: set_nth l i v end.
Fixpoint multi_loop (binom : nat -> Z -> Z) (j todo : nat) (mnix : list Z) (dn : Z) : list Z * Z :=
  match todo with
  | O => (mnix, dn)
  | Datatypes.S todo =>
      let v := binom j dn in
      let mnix := set_nth mnix j v in
      let dn := (dn - v)%Z in
      if (dn <=? 0)%Z then (mnix, dn) else multi_loop binom (Datatypes.S j) todo mnix dn
  end.
Definition multinomial (binom : nat -> Z -> Z) (n : Z) (mnix : list Z) : option (list Z) :=
  let d := length mnix in
  let '(mnix, dn) := multi_loop binom 0 (d - 1) mnix n in
  if (0 <? dn)%Z then match d with O => None | _ => Some (set_nth mnix (d - 1) dn) end else Some mnix.

(* hypergeometric.c:46-89 hypergeometric_sample: the loop of lines 62-74, with r the numbers that
   random_interval returns in turn (no more of them than computed_sample are used), giving remaining_good;
   None: r is too short *)
Fixpoint hyper_loop (r : list Z) (computed_sample : nat) (remaining_good remaining_total : Z) : option (nat * Z * Z) :=
  if (0 <? computed_sample)%nat && (0 <? remaining_good)%Z && (remaining_good <? remaining_total)%Z then
    match r, computed_sample with
    | x :: r, Datatypes.S c =>
        let remaining_total := (remaining_total - 1)%Z in
        let remaining_good := if (x <? remaining_good)%Z then (remaining_good - 1)%Z else remaining_good in
        hyper_loop r c remaining_good remaining_total
    | _, _ => None
    end
  else Some (computed_sample, remaining_good, remaining_total).
Definition hypergeometric (r : list Z) (good bad sample : Z) : option Z :=
  let total := (good + bad)%Z in
  let computed_sample := if (total / 2 <? sample)%Z then (total - sample)%Z else sample in
  match hyper_loop r (Z.to_nat computed_sample) good total with
  | None => None
  | Some (c, remaining_good, remaining_total) =>
      let remaining_good := if (remaining_total =? remaining_good)%Z then (remaining_good - Z.of_nat c)%Z else remaining_good in
      Some (if (total / 2 <? sample)%Z then remaining_good else (good - remaining_good)%Z)
  end.
