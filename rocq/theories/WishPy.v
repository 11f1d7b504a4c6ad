(* wishart and standard_wishart of generator.pyx: arguments, shapes, and which degrees of freedom,
   matrix and variate each element of the result is made of. The matrices themselves are in Wishart.v.
   NumPy is taken at its documented behaviour: broadcasting, iteration in C order. *)
From Coq Require Import Arith NArith ZArith List Lia Bool ZifyBool ZifyNat ZifyN.
From Verif Require Import Shape Complex.
Import ListNotations.
Open Scope N_scope.

Inductive werr := WValueError | WAttributeError.
(* a call returns, or raises after it has drawn some variates *)
Inductive wout (A : Type) := Done (a : A) | Fails (e : werr) (drawn : N).
Arguments Done {A}. Arguments Fails {A}.
(* size: None, an int, a tuple or a list (simplification: no negative numbers, which np.empty refuses,
   and no empty list) *)
Inductive sizearg := SNone | SInt (n : N) | STuple (l : list N) | SList (l : list N).
(* df after np.asarray(df, np.int64), its elements in C order *)
Record darg := { d_shape : list N; d_at : N -> Z }.
(* the shape of scale, whether it is an ndarray or another array_like, and whether _factorize
   (generator.pyx:65-119) accepts its matrices: with check_valid="raise" it raises ValueError *)
Record sarg := { s_shape : list N; s_array : bool; s_valid : bool }.
(* What an element of the result is made of: its degrees of freedom, the number of its matrix in scale
   (C order), and the number of the standard variate among those that the call draws *)
Record elem := { e_df : Z; e_mat : N; e_var : N }.
(* a result: its shape and its N by N matrices in C order; None: memory that was not written *)
Record wres := { w_shape : list N; w_at : N -> option elem }.

(* generator.pyx:728-808 standard_wishart, for a dimension and degrees of freedom of any sign:
   np.empty refuses negative dimensions (lines 793, 796). Simplification: sizes that do not fit in
   memory are left out, and the division by df (806-807) is in Wishart.v. *)
Definition std_size (size : sizearg) : list N :=                              (* 785-790 *)
  match size with SNone => [1] | STuple [] => [1] | SInt n => [n] | STuple l | SList l => l end.
Definition std_lead (size : sizearg) : list N :=                              (* 802-805 *)
  match size with SNone => [] | STuple [] => [] | _ => std_size size end.
Definition standard_wishart (df dim : Z) (size : sizearg) : wout wres :=
  let num := prod (std_size size) in
  let made := {| w_shape := std_lead size ++ [Z.to_N dim; Z.to_N dim];
                 w_at := fun k => if k <? num then Some {| e_df := df; e_mat := 0; e_var := k |} else None |} in
  if (df <? dim)%Z then if (df <? 0)%Z || (dim <? 0)%Z then Fails WValueError 0 else Done made
  else if (dim <? 0)%Z then Fails WValueError 0 else Done made.

(* generator.pyx:967-989, iteration i of the loop: block variates are drawn and stored in
   out[..., i, :, :], where out has block rows of cnt matrices. The state is the number of variates
   drawn so far and the memory of out. *)
Definition w_step (block cnt : N) (df : N -> Z) (mat : N -> N) (st : N * (N -> option elem)) (i : nat) : N * (N -> option elem) :=
  let i := N.of_nat i in
  (fst st + block,
   fun j => if (j mod cnt =? i) && (j / cnt <? block) then Some {| e_df := df i; e_mat := mat i; e_var := fst st + j / cnt |} else snd st j).
Definition w_loop (block cnt : N) (df : N -> Z) (mat : N -> N) : N -> option elem :=
  snd (fold_left (w_step block cnt df mat) (seq 0 (N.to_nat cnt)) (0, fun _ => None)).

(* generator.pyx:935-953: size against the broadcast shape; a list is never equal to a tuple. The result
   is the leading shape of out and the number of rows, or None for the ValueError *)
Definition w_size (size : sizearg) (its : list N) : option (list N * N) :=
  let tup l := if (length l <? length its)%nat || negb (if list_eq_dec N.eq_dec (skipn (length l - length its) l) its then true else false) then None
               else Some (l, if list_eq_dec N.eq_dec l its then 1 else prod (firstn (length l - length its) l)) in
  match size with SNone => Some (its, 1) | SInt n => tup [n] | STuple l => tup l | SList _ => None end.

(* generator.pyx:810-990 wishart *)
Definition wishart (df : darg) (scale : sarg) (size : sizearg) : wout wres :=
  let sh := s_shape scale in
  let nd := length sh in
  if prod (d_shape df) =? 0 then Fails WValueError 0                                            (* 895-896 *)
  else if negb (forallb (fun i => (0 <? d_at df (N.of_nat i))%Z) (seq 0 (N.to_nat (prod (d_shape df))))) then Fails WValueError 0
  else if (nd <? 2)%nat || (prod sh =? 0) then Fails WValueError 0                              (* 905-906 *)
  else let dim := nth (nd - 1) sh 0 in
  if negb (nth (nd - 2) sh 0 =? dim) then Fails WValueError 0                                   (* 909-910 *)
  else let ss := firstn (nd - 2) sh in
  match d_shape df, ss with
  | [], [] =>                                                                                  (* 913-919 *)
      match standard_wishart (d_at df 0) (Z.of_N dim) size with
      | Done r => if s_valid scale then Done r else Fails WValueError (prod (std_size size))
      | Fails e n => Fails e n
      end
  | _, _ =>
      match np_broadcast (d_shape df) (at_least_1d ss) with                                   (* 921-933 *)
      | None => Fails WValueError 0
      | Some its =>
          match w_size size its with
          | None => Fails WValueError 0
          | Some (lead, block) =>
              let cnt := prod its in
              if negb (prod (lead ++ [dim; dim]) / (cnt * dim * dim) =? block) then Fails WValueError 0   (* 955-956, 987: reshape *)
              else if negb (s_array scale) then Fails WAttributeError 0                         (* 958: scale.shape *)
              else if negb (s_valid scale) then Fails WValueError 0                           (* 959 *)
              else Done {| w_shape := lead ++ [dim; dim];
                           w_at := w_loop block cnt (fun i => d_at df (pick (d_shape df) (unravel its i))) (fun i => pick (at_least_1d ss) (unravel its i)) |}
          end
      end
  end.
