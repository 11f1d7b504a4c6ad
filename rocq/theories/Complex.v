(* complex_normal and multivariate_complex_normal of generator.pyx.
   Simplification: double is R (exact arithmetic); a complex number is a pair. NumPy is taken at its
   documented behaviour: broadcasting, iteration in C order, boolean indexing of flat iterators. *)
From Verif Require Import Word Py Shape.
From Coq Require Import Reals Lra Lia List ZifyBool ZifyNat ZifyN.
Import ListNotations.
Ltac Zify.zify_post_hook ::= idtac.
Open Scope R_scope.

Definition cplx : Type := R * R.
Definition re (z : cplx) : R := fst z.
Definition im (z : cplx) : R := snd z.

(* ---------------------------------------------------------- one element *)
(* var_r, var_i and rho *)
Record cn_par := CN { cn_vr : R; cn_vi : R; cn_rho : R }.
(* generator.pyx:630-650, all three arguments scalars *)
Definition cn_scalar (gamma relation : cplx) : outcome cn_par :=
  let c := / 2 * im relation in
  let vr := / 2 * (re gamma + re relation) in
  let vi := / 2 * (re gamma - re relation) in
  if Req_EM_T (im gamma) 0 then
    if Rlt_dec vi 0 then Raise ValueError
    else if Rlt_dec vr 0 then Raise ValueError
    else
      let rho := if Rlt_dec 0 vi then if Rlt_dec 0 vr then c / sqrt (vi * vr) else 0 else 0 in
      if Rlt_dec 1 rho then Raise ValueError
      else if Rlt_dec rho (- 1) then Raise ValueError
      else Ok (CN vr vi rho)
  else Raise ValueError.
(* generator.pyx:678-694 for one element of the arrays; the array version raises when it does for
   some element (every exception here is a ValueError) *)
Definition cn_elem (gamma relation : cplx) : outcome cn_par :=
  let vr := / 2 * (re gamma + re relation) in
  let vi := / 2 * (re gamma - re relation) in
  if Rlt_dec vr 0 then Raise ValueError
  else if Rlt_dec vi 0 then Raise ValueError
  else if Req_EM_T (im gamma) 0 then
    let c := / 2 * im relation in
    if Rlt_dec 0 vr then
      if Rlt_dec 0 vi then
        let rho := c / sqrt (vr * vi) in
        if Rlt_dec 1 (Rabs rho) then Raise ValueError else Ok (CN vr vi rho)
      else if Req_EM_T c 0 then Ok (CN vr vi 0) else Raise ValueError
    else if Req_EM_T c 0 then Ok (CN vr vi 0) else Raise ValueError
  else Raise ValueError.
(* common.pxd:49-64 compute_complex, x and y the two normals *)
Definition compute_complex (loc : cplx) (p : cn_par) (x y : R) : cplx :=
  let scale_c := sqrt (1 - cn_rho p * cn_rho p) in
  let scale_r := sqrt (cn_vr p) in
  let scale_i := sqrt (cn_vi p) in
  (re loc + scale_r * x, im loc + scale_i * (cn_rho p * x + scale_c * y)).

(* ----------------------------------------------------- arrays of elements *)
(* the multi-index of the k-th element in C order, and the element of an array of shape sh that
   broadcasts to the multi-index ix (dimensions aligned at the end, 1 stretched) *)
Open Scope N_scope.
Fixpoint unravel (sh : list N) (k : N) : list N :=
  match sh with [] => [] | _ :: sh => k / Shape.prod sh :: unravel sh (k mod Shape.prod sh) end.
Fixpoint ravel (sh ix : list N) : N :=
  match sh, ix with d :: sh, i :: ix => (if d =? 1 then 0 else i) * Shape.prod sh + ravel sh ix | _, _ => 0 end.
Definition pick (sh ix : list N) : N := ravel sh (skipn (List.length ix - List.length sh) ix).
(* generator.pyx:685-700: the shape of the result and of the iterator over it and the parameters;
   rho has the shape of relation and is indexed with a mask of the size of gamma + relation, which
   NumPy refuses ("too many boolean indices") when it is longer. size None: not given. *)
Definition cn_shapes (ls gs rs : list N) (size : option (list N)) : outcome (list N * list N) :=
  match np_broadcast gs rs with
  | None => Raise ValueError
  | Some vs =>
      if Shape.prod rs <? Shape.prod vs then Raise IndexError
      else
        match np_broadcast ls vs with
        | None => Raise ValueError
        | Some ps =>
            match np_broadcast ps rs with
            | None => Raise ValueError
            | Some ps =>
                let out := match size with Some s => s | None => ps end in
                match np_broadcast out ps with
                | None => Raise ValueError
                | Some it => Ok (out, it)
                end
            end
        end
  end.
(* generator.pyx:703-719: element k of the result reads the parameters at the k-th position of the
   iterator, and the normals number 2 k and 2 k + 1 *)
Definition cn_array_elem {A} (it psh : list N) (par : N -> A) (k : N) : A := par (pick psh (unravel it k)).
Definition cn_fill (it ls vs : list N) (loc : N -> cplx) (par : N -> cn_par) (normal : N -> R) (k : N) : cplx :=
  compute_complex (cn_array_elem it ls loc k) (cn_array_elem it vs par k) (normal (2 * k)) (normal (2 * k + 1)).
(* generator.pyx:660-672: the scalar version with a size *)
Definition cn_fill_scalar (loc : cplx) (p : cn_par) (normal : N -> R) (k : N) : cplx :=
  compute_complex loc p (normal (2 * k)) (normal (2 * k + 1)).

(* ------------------------------------------ multivariate_complex_normal *)
Open Scope R_scope.
(* generator.pyx:1211-1218 temp, and 1194-1196 temp[ix] with p = 0, dim, 1, dim + 1, ... *)
Definition mc_temp (dim : nat) (g r : nat -> nat -> cplx) (a b : nat) : R :=
  if (a <? dim)%nat then
    if (b <? dim)%nat then / 2 * (re (g a b) + re (r a b)) else - (/ 2 * (im (g a (b - dim)%nat) - im (r a (b - dim)%nat)))
  else
    if (b <? dim)%nat then / 2 * (im (g (a - dim)%nat b) + im (r (a - dim)%nat b)) else / 2 * (re (g (a - dim)%nat (b - dim)%nat) - re (r (a - dim)%nat (b - dim)%nat)).
Definition mc_perm (dim a : nat) : nat := Nat.add (Nat.div a 2) (if Nat.even a then O else dim).
Definition mc_cov (dim : nat) (g r : nat -> nat -> cplx) (a b : nat) : R := mc_temp dim g r (mc_perm dim a) (mc_perm dim b).
(* larr.view(np.float64) and out.view(complex) *)
Definition as_floats (z : nat -> cplx) (a : nat) : R := if Nat.even a then re (z (Nat.div a 2)) else im (z (Nat.div a 2)).
Definition as_complex (x : nat -> R) (i : nat) : cplx := (x (2 * i)%nat, x (2 * i + 1)%nat).

(* generator.pyx:1198-1211: garr[i] for an array of shape lead ++ [dim; dim] and i in
   np.arange(np.prod(lead)). The number of the matrix that is used; IndexError when i is no index of
   the first dimension, ValueError when garr[i] is no single matrix *)
Open Scope N_scope.
Definition mc_select (lead : list N) (i : N) : outcome N :=
  match lead with
  | [] => Ok 0
  | n :: rest => if i <? n then if forallb (fun d => d =? 1) rest then Ok i else Raise ValueError else Raise IndexError
  end.
