(* multivariate_complex_normal of generator.pyx: the checks of its arguments and the shape of its result *)
From Coq Require Import Arith NArith List Lia Bool ZifyBool ZifyNat ZifyN.
From Verif Require Import Shape.
Import ListNotations.
Open Scope N_scope.

(* generator.pyx:1147-1159 and 1167-1179: at least 2 dimensions, the last two both dim, not empty *)
Definition mcn_square (sh : list N) (dim : N) : bool :=
  let nd := length sh in
  negb ((nd <? 2)%nat || negb (nth (nd - 2) sh 0 =? nth (nd - 1) sh 0) || negb (nth (nd - 1) sh 0 =? dim) || (prod sh =? 0)).
(* generator.pyx:1130-1241 for a loc of shape ls, a gamma of shape gs and a relation of shape rs (None: not
   given); None: ValueError. Lines 1187-1193 compute a shape from loc and size that is not used. The loc of
   dim complex numbers is viewed as 2 dim doubles (1239), and the result back (1241).
   Simplification: the matrices are taken to be accepted. *)
Definition mcn_shape (ls : list N) (gs rs : option (list N)) (size : option (list N)) : option (list N) :=
  if (length ls <? 1)%nat || (prod ls =? 0) then None
  else
    let dim := nth (length ls - 1) ls 0 in
    let gs := match gs with Some g => g | None => [dim; dim] end in
    let rs := match rs with Some r => r | None => [dim; dim] end in
    if negb (mcn_square gs dim) then None
    else if negb (mcn_square rs dim) then None
    else match broadcast_shape gs rs false with
         | (false, _) => None
         | (true, cov) =>
             let common := firstn (length cov - 2) cov in
             match mvn_shape (firstn (length ls - 1) ls) common (2 * dim) size with
             | None => None
             | Some sh => Some (firstn (length sh - 1) sh ++ [nth (length sh - 1) sh 0 / 2])
             end
         end.
(* generator.pyx:1199-1217: how many iterations the loop over np.broadcast(gidx, ridx) makes, and how many
   matrices factors has room for *)
Definition mcn_loops (gb rb : list N) : option N := option_map prod (np_broadcast (at_least_1d gb) (at_least_1d rb)).
Definition mcn_room (common : list N) : N := prod common.
