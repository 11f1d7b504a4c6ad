(* aligned_malloc.h: memory blocks at multiples of 64. Pointers and size_t have 64 bits; memory is a
   map from addresses to bytes, pointers are stored least significant byte first. *)
From Coq Require Import Arith NArith List Lia Bool ZifyBool ZifyNat ZifyN.
From Verif Require Import Word.
Ltac Zify.zify_post_hook ::= idtac.
Open Scope N_scope.

Definition mem := N -> N.
Definition put_ptr (m : mem) (a v : N) : mem := fun x => if (a <=? x) && (x <? a + 8) then (v / 256 ^ (x - a)) mod 256 else m x.
Definition get_ptr (m : mem) (a : N) : N :=
  m a + 256 * (m (a + 1) + 256 * (m (a + 2) + 256 * (m (a + 3) + 256 * (m (a + 4) + 256 * (m (a + 5) + 256 * (m (a + 6) + 256 * m (a + 7))))))).
(* memmove, memset to 0 *)
Definition memmove (m : mem) (dst src n : N) : mem := fun x => if (dst <=? x) && (x <? dst + n) then m (src + (x - dst)) else m x.
Definition memzero (m : mem) (dst n : N) : mem := fun x => if (dst <=? x) && (x <? dst + n) then 0 else m x.

(* NPY_MEMALIGN - 1 + sizeof(void * ) *)
Definition offs : N := 64 - 1 + 8.
(* n + offs as size_t *)
Definition block_size (n : N) : N := (n + offs) mod 2 ^ 64.
(* (p1 + offs) & ~(NPY_MEMALIGN - 1) *)
Definition align_up (p1 : N) : N := N.land ((p1 + offs) mod 2 ^ 64) (2 ^ 64 - 64).
(* src/aligned_malloc/aligned_malloc.h:9-32 PyArray_realloc_aligned. alloc base size stands for PyMem_Realloc(base, size),
   and PyMem_Malloc(size) for base = 0: the new block and memory after it, or None for NULL *)
Definition realloc_aligned (alloc : N -> N -> option (N * mem)) (m : mem) (p n : N) : option (N * mem) :=
  if p =? 0 then
    match alloc 0 (block_size n) with
    | None => None
    | Some (p1, m) => let p2 := align_up p1 in Some (p2, put_ptr m (p2 - 8) p1)
    end
  else
    let base := get_ptr m (p - 8) in
    match alloc base (block_size n) with
    | None => None
    | Some (p1, m) =>
        if p1 =? base then Some (p, m)
        else
          let p2 := align_up p1 in
          let old_offs := p - base in
          let m := memmove m p2 (p1 + old_offs) n in
          Some (p2, put_ptr m (p2 - 8) p1)
    end.
(* aligned_malloc.h:34-37 *)
Definition malloc_aligned alloc (m : mem) (n : N) : option (N * mem) := realloc_aligned alloc m 0 n.
(* aligned_malloc.h:39-46 *)
Definition calloc_aligned alloc (m : mem) (n s : N) : option (N * mem) :=
  match realloc_aligned alloc m 0 ((n * s) mod 2 ^ 64) with
  | None => None
  | Some (p, m) => Some (p, memzero m p ((n * s) mod 2 ^ 64))
  end.
(* aligned_malloc.h:48-52: the block given to PyMem_Free *)
Definition free_aligned (m : mem) (p : N) : N := get_ptr m (p - 8).
