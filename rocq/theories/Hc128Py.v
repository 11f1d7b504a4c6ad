(* HC128: the arguments of the constructor and of seed() *)
From Verif Require Import Word MultiWord Buffer32 Py Convert Hc128 PcgInit.
From Coq Require Import String ZifyBool ZifyNat ZifyN.
Open Scope N_scope.
Ltac Zify.zify_post_hook ::= idtac.

(* an HC128 object: its SeedSequence (ho_seq n: what generate_state(n, np.uint64) returns) and
   rng_state *)
Record hobj := HO { ho_seq : N -> list N; ho_st : hc }.
(* hc128.pyx:161-166: object_to_int, int_to_array, view_little_endian, hc128_seed. big: a
   big-endian machine. A key that is None is not passed here. None: undefined. *)
Definition hc_key (big : bool) (key : objv) (s : hc) : option (outcome hc) :=
  match object_to_int 64 true false (Some 256) key with
  | None | Some (Ok None) => None
  | Some (Raise e) => Some (Raise e)
  | Some (Ok (Some z)) =>
      match int_to_array (Some 256) 64 z with
      | Raise e => Some (Raise e)
      | Ok l => option_map Ok (hc_init (view_little_endian big 8 4 l) s)
      end
  end.
(* hc128.pyx:128-166 seed(seed, key), common.pyx:79-87. seeded: seed is not None; q: the
   SeedSequence made of seed (of fresh entropy when seed is None). On an exception the object is as
   before. *)
Definition hc_py_seed (big : bool) (q : N -> list N) (seeded : bool) (key : objv) (o : hobj) : option (outcome hobj) :=
  match key with
  | ONone => option_map (fun r => obind r (fun s => Ok (HO q s))) (hc_key big (OArr 64 (q 4)) (ho_st o))
  | _ => if seeded then Some (Raise ValueError)
         else option_map (fun r => obind r (fun s => Ok (HO (ho_seq o) s))) (hc_key big key (ho_st o))
  end.
(* hc128.pyx:114-122 HC128(seed, key=key, mode=mode); q0: the SeedSequence that
   numpy.random.BitGenerator.__init__ makes of seed *)
Definition hc_py_new (big : bool) (mode : mode_arg) (q0 q : N -> list N) (seeded : bool) (key : objv) : option (outcome hobj) :=
  match init_mode modes_one false mode with
  | Raise e => Some (Raise e)
  | Ok _ => hc_py_seed big q seeded key (HO q0 hc_zero)
  end.
