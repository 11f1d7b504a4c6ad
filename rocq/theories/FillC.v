(* The fill_array functions of SFMT and dSFMT
   (randomgen/src/sfmt/sfmt.c:290-345, randomgen/src/dsfmt/dsfmt.c:65-130 and 444-502) *)
From Verif Require Import Word Lagged LaggedBuf Sfmt Dsfmt FillArr.
From Coq Require Import List ZArith NArith.
Import ListNotations.
Open Scope N_scope.

(* sfmt.c:290-345: sfmt_fill_array32 (per = 4 values in a 128-bit word) and
   sfmt_fill_array64 (per = 2); dbg: compiled with the assertions.  The array is
   the list of its 128-bit words; None is a failed assertion or an access outside
   the array.  Little-endian only (no swap). *)
Definition sf_fill (dbg : bool) (per size : nat) (st : list N) (idx : Z) (arr : list N) : option (list N * Z * list N) :=
  if (negb dbg || ((idx =? 624)%Z && (size mod per =? 0)%nat && (per * sfK <=? size)%nat))%bool then
    match gen_rand_array sfK sfP sf_f sf_g (fun w => w) (size / per) st 0 arr with
    | Some (st', _, arr') => Some (st', 624%Z, arr')
    | None => None
    end
  else None.

(* dsfmt.c:65-130: the conversions of a pair of doubles in [1, 2).  A double in
   [0, 1] is given by its numerator over 2^52: the operations are exact, since every
   multiple of 2^-52 in [0, 2] is a double. *)
Definition mant (w : N) : N := w mod 2 ^ 52.
Definition conv_c0o1 (w : N) : N := dw (mant (dlo w)) (mant (dhi w)).
Definition conv_o0c1 (w : N) : N := dw (2 ^ 52 - mant (dlo w)) (2 ^ 52 - mant (dhi w)).
Definition conv_o0o1 (w : N) : N := dw (mant (N.lor (dlo w) 1)) (mant (N.lor (dhi w) 1)).

(* dsfmt.c:444-502: dsfmt_fill_array_close1_open2 (conv = identity), _open_close
   (conv_o0c1), _close_open (conv_c0o1) and _open_open (conv_o0o1) *)
Definition ds_fill (dbg : bool) (conv : N -> N) (size : nat) (st : list N) (u : N) (arr : list N) : option (list N * N * list N) :=
  if (negb dbg || ((size mod 2 =? 0)%nat && (2 * dsK <=? size)%nat))%bool then
    gen_rand_array dsK dsP ds_f ds_g conv (size / 2) st u arr
  else None.
