(* Pickling an ExtendedGenerator, and states of another class. *)
From Verif Require Import Word Py AesPy ChaCha Dsfmt DsfmtFacts Efiix Hc128 Hc128Facts Jsf Xoshiro XoshiroFacts XorshiftFacts Mt19937 Mt19937Facts Mt64 Mt64Facts
  Pcg PcgFacts LcgMixFacts Ctr CtrPy Rdrand Romu Sfc SfcFacts Sfmt SfmtFacts Speck Squares SquaresFacts Tyche Buffer32 LaggedBuf Pickle.
From Coq Require Import String Eqdep_dec ZifyBool ZifyNat ZifyN.
Open Scope N_scope.
Ltac Zify.zify_post_hook ::= idtac.

(* The states an object of class k can be in (fields within their C types, tables of
   their declared lengths): what the restore theorems of each class ask for. Squares
   and SFMT are restricted, see the theorems below. *)
Definition int32 (z : Z) : Prop := (- 2 ^ 31 <= z < 2 ^ 31)%Z.
Definition saved (k : klass) : obj k -> Prop :=
  match k with
  | KAESCounter => aes_live
  | KChaCha => fun s => cc_ok s /\ int32 (cc_rounds s)
  | KDSFMT => fun s => List.length (lb_st s) = 191%nat /\ Forall (wf 128) (lb_st s) /\ wf 128 (lb_u s) /\ int32 (lb_idx s) /\ int32 (lb_loc s) /\ List.length (lb_buf s) = 382%nat
  | KEFIIX64 => efpy_ok
  | KHC128 => fun s => tok (hc_p s) /\ tok (hc_q s) /\ List.length (hc_buf s) = 16%nat /\ Forall (wf 32) (hc_buf s) /\ int32 (hc_idx s) /\ int32 (hc_bidx s)
  | KJSF => jspy_wf
  | KLCG128Mix => fun _ => False
  | KLXM => lxm_wf
  | KMT19937 => fun s => Mt19937Facts.kok (mt_key s) /\ int32 (mt_pos s)
  | KMT64 => fun s => Mt64Facts.kok (m64_key (core s)) /\ int32 (m64_pos (core s)) /\ wf 32 (u32 s)
  | KPCG32 => pcg32_wf
  | KPCG64 => pcg64_wf
  | KPCG64DXSM => fun s => pcg64_wf s /\ p_var (core s) = CmDxsm
  | KPhilox => o_ok Philox
  | KThreeFry => o_ok ThreeFry
  | KRDRAND => fun _ => False
  | KRomu => rmpy_ok
  | KSFC64 => sfpy_ok
  | KSFMT => fun s => sfok (lb_st (core s)) /\ lb_u (core s) = 0 /\ int32 (lb_idx (core s)) /\ int32 (lb_loc (core s)) /\
                      List.length (lb_buf (core s)) = 312%nat /\ Forall (wf 64) (lb_buf (core s)) /\ u32 s < 2 ^ 32
  | KSPECK128 => sp_ok
  | KSquares => fun s => sq_wf s /\ has32 s = false /\ u32 s = 0
  | KTyche => tp_ok
  | KXoroshiro128 => xoroshiro128_wf
  | KXorshift1024 => xorshift1024_wf
  | KXoshiro256 => xoshiro256_wf
  | KXoshiro512 => xoshiro512_wf
  end.
(* What is asked of the object a constructor without arguments returns. *)
Definition newborn (k : klass) : obj k -> Prop :=
  match k with
  | KAESCounter => aes_live
  | KChaCha => cc_ok
  | KDSFMT => fun t => List.length (lb_buf t) = 382%nat
  | KSFMT => fun t => lb_u (core t) = 0
  | KSquares => fun t => has32 t = false /\ u32 t = 0
  | KLXM => lxm_wf | KPCG32 => pcg32_wf | KPCG64 => pcg64_wf | KPCG64DXSM => fun s => pcg64_wf s /\ p_var (core s) = CmDxsm
  | KXoroshiro128 => xoroshiro128_wf | KXorshift1024 => xorshift1024_wf | KXoshiro256 => xoshiro256_wf | KXoshiro512 => xoshiro512_wf
  | _ => fun _ => True
  end.

(* ------------------------------------------------------------------ C58 *)
(* every class is found under its short name and under the name its states carry *)
Theorem C58_every_class_is_registered : forall k, find_class registry (kname k) = Some k /\ find_class registry (kfqn k) = Some k.
Proof. intros []; split; vm_compute; reflexivity. Qed.
(* each getter writes the fully qualified name of its class *)
Theorem C58_states_carry_the_class_name : forall k (s : obj k), getitem (kget k s) "bit_generator" = Ok (PStr (kfqn k)).
Proof. intros [] s; reflexivity. Qed.
Lemma unpickle_known fresh k (s s' : obj k) : kset k (kget k s) (fresh k) = Some (s', Ok tt) -> unpickle fresh (kget k s) = Some (Ok (existT obj k s')).
Proof.
  intros H. unfold unpickle, pickle_name. rewrite C58_states_carry_the_class_name. cbv beta iota.
  rewrite (proj2 (C58_every_class_is_registered k)), H. reflexivity.
Qed.
(* Unpickling a pickled generator gives an object of the same class with every field
   equal, whatever the entropy seeded the new object with. *)
Theorem C58_round_trip_partial : forall fresh k (s : obj k), saved k s -> newborn k (fresh k) -> unpickle fresh (kget k s) = Some (Ok (existT obj k s)).
Proof.
  intros fresh k s Hs Ht. apply unpickle_known. unfold int32 in *.
  destruct k; cbn [saved newborn kset kget] in *; unfold always; try contradiction.
  - now rewrite aes_restores.
  - destruct Hs. now rewrite cc_set_get.
  - destruct Hs as (A & B & C & D & E & F). now rewrite ds_set_get.
  - now rewrite ef_set_get.
  - destruct Hs as (A & B & C & D & E & F). now rewrite hc_set_get.
  - now rewrite jsf_set_get.
  - now rewrite lxm_restores.
  - destruct Hs. now rewrite mt_set_get.
  - destruct Hs as (A & B & C). now rewrite m64_set_get.
  - now rewrite pcg32_restores.
  - now rewrite pcg64_restores.
  - now rewrite dxsm_restores.
  - now apply c_set_get.
  - now rewrite romu_set_get.
  - now rewrite sfc_set_get.
  - destruct Hs as (A & B & C & D & E & F & G). rewrite sf_set_get; try assumption; [reflexivity|]. now rewrite B, Ht.
  - now rewrite sp_set_get.
  - destruct Hs as (A & B & C), Ht as [D E]. rewrite sq_set_get by assumption. rewrite D, E, <- B, <- C at 1. now destruct s.
  - now apply c_set_get.
  - now rewrite ty_set_get.
  - now rewrite xoroshiro128_restores.
  - now rewrite xorshift1024_restores.
  - now rewrite xoshiro256_restores.
  - now rewrite xoshiro512_restores.
Qed.
(* LCG128Mix: the loaded generator answers every sequence of requests as the pickled
   one would *)
Theorem C58_lcg128mix_stream :
  forall cfun fresh (s : lcgpy), lcg_wf s -> lcg_out_ok s ->
  exists r : lcgpy, unpickle fresh (kget KLCG128Mix s) = Some (Ok (existT obj KLCG128Mix r)) /\
    forall rs, snd (run (lcg_next cfun) rs (Pcg.lb r)) = snd (run (lcg_next cfun) rs (Pcg.lb s)).
Proof.
  intros cfun fresh s Hw Ho. exists (fst (lcg_set (lcg_get s) (fresh KLCG128Mix))). split.
  - apply unpickle_known. cbn [kset kget]. unfold always. now rewrite lcg_set_get by assumption.
  - intros rs. now apply lcg_restored_stream.
Qed.
(* but seed() of the loaded generator uses the default multiplier, not the one the
   pickled generator was built with *)
Theorem C58_lcg128mix_multiplier_refuted :
  exists (s : lcgpy), lcg_wf s /\ lcg_out_ok s /\
  forall (fresh : forall k, obj k) dxsm post i j, fresh KLCG128Mix = lcg_new PCG_DEFAULT_MULT dxsm post (inl 3%Z) i j ->
  exists r a q, unpickle fresh (kget KLCG128Mix s) = Some (Ok (existT obj KLCG128Mix r)) /\ lcg_get (lcg_seed a q r) <> lcg_get (lcg_seed a q s).
Proof.
  exists (lcg_new 5 5 true (inl 1%Z) 1 2). assert (W : lcg_wf (lcg_new 5 5 true (inl 1%Z) 1 2) /\ lcg_out_ok (lcg_new 5 5 true (inl 1%Z) 1 2)) by (vm_compute; repeat split; discriminate).
  destruct W as [W O]. split; [exact W|]. split; [exact O|]. intros fresh dxsm post i j E.
  exists (fst (lcg_set (lcg_get (lcg_new 5 5 true (inl 1%Z) 1 2)) (fresh KLCG128Mix))), 1, 2. split.
  - apply unpickle_known. cbn [kset kget]. unfold always. now rewrite lcg_set_get by assumption.
  - rewrite E, lcg_set_get by assumption. vm_compute. discriminate.
Qed.
(* Squares: a half buffered for 32-bit draws is lost, so the loaded generator's next
   32-bit draw is another one *)
Theorem C58_squares_half_refuted :
  exists (s : sqpy), sq_wf s /\ forall fresh : (forall k, obj k), newborn KSquares (fresh KSquares) ->
  exists r : sqpy, unpickle fresh (kget KSquares s) = Some (Ok (existT obj KSquares r)) /\ snd (sq_next32 r) <> snd (sq_next32 s).
Proof.
  exists (Buf (SQ 11 22 true) true 33). split; [split; reflexivity|]. intros fresh [H1 H2].
  exists (Buf (SQ 11 22 true) false 0). split.
  - apply unpickle_known. cbn [kset kget]. unfold always. rewrite sq_set_get by (split; reflexivity). rewrite H1, H2. reflexivity.
  - vm_compute. discriminate.
Qed.
(* RDRAND has no reproducible stream; the class and the number of retries survive *)
Theorem C58_rdrand_retries :
  forall fresh (s : rdrand), int32 (rd_retries s) ->
  exists r : rdrand, unpickle fresh (kget KRDRAND s) = Some (Ok (existT obj KRDRAND r)) /\ rd_retries r = rd_retries s.
Proof.
  intros fresh s H. set (t := fresh KRDRAND). exists (RD (rd_buf t) (rd_loc t) (rd_stat t) (rd_retries s) (rd_pos t)). split; [|reflexivity].
  apply unpickle_known. cbn [kset kget]. unfold always. f_equal. fold t.
  unfold rd_set, rd_get, bind, lift, modify. cbn -[to_cint]. unfold to_cint, int32 in *.
  destruct ((- 2 ^ 31 <=? rd_retries s) && (rd_retries s <? 2 ^ 31))%Z eqn:E; [reflexivity|apply andb_false_iff in E; lia].
Qed.
(* a name that no class has (a subclass, a UserBitGenerator): a ValueError when loading *)
Lemma find_class_in l x k : find_class l x = Some k -> In (x, k) l.
Proof. induction l as [|[y k'] l IH]; cbn; [discriminate|]. destruct (String.eqb_spec x y) as [->|_]; [intros [= ->]; now left|]. intros H. right. now apply IH. Qed.
Theorem C58_registry_is_names : forall x k, find_class registry x = Some k -> x = kname k \/ x = kfqn k.
Proof.
  intros x k H. apply find_class_in in H. unfold registry in H. apply in_app_or in H. destruct H as [H|H].
  - left. repeat (destruct H as [[= <- <-]|H]; [reflexivity|]). destruct H.
  - right. apply in_map_iff in H. destruct H as ([y k'] & [= <- <-] & _). reflexivity.
Qed.
Theorem C58_unknown_name :
  forall fresh st x, getitem st "bit_generator" = Ok (PStr x) -> (forall k, x <> kname k /\ x <> kfqn k) -> unpickle fresh st = Some (Raise ValueError).
Proof.
  intros fresh st x H N. unfold unpickle, pickle_name. rewrite H.
  destruct (find_class registry x) as [k|] eqn:E; [|reflexivity]. apply C58_registry_is_names in E. destruct (N k), E; contradiction.
Qed.
Example C58_unknown_case : forall k, "__main__.MyPCG64"%string <> kname k /\ "__main__.MyPCG64"%string <> kfqn k.
Proof. intros []; split; vm_compute; discriminate. Qed.
(* numpy's own generators name their states PCG64, MT19937, Philox, SFC64 and
   PCG64DXSM, so an ExtendedGenerator over one of them is loaded with the randomgen
   class of that name. numpy's PCG64 is loaded as the same sequence ... *)
Definition np_pcg64 (state inc : N) (h : bool) (u : N) : pyval :=
  PDict [("bit_generator", PStr "PCG64"); ("state", PDict [("state", PInt (Z.of_N state)); ("inc", PInt (Z.of_N inc))]);
         ("has_uint32", bool_int h); ("uinteger", PInt (Z.of_N u))]%string.
Theorem C58_numpy_pcg64 :
  forall fresh state inc h u, wf 128 state -> wf 128 inc -> wf 32 u ->
  unpickle fresh (np_pcg64 state inc h u) = Some (Ok (existT obj KPCG64 (Buf (P64 state inc XslRr) h u))).
Proof.
  intros fresh state inc h u Hs Hi Hu. unfold unpickle, np_pcg64.
  replace (pickle_name _) with (Ok "PCG64"%string) by reflexivity. cbv beta iota.
  replace (find_class registry "PCG64") with (Some KPCG64) by (vm_compute; reflexivity). cbn [kset]. unfold always, pcg64_set, pcg64_set_gen.
  repeat (pyrun; try rewrite np_u128_ok by assumption). reflexivity.
Qed.
(* ... but the state of numpy's SFC64 has other keys and cannot be loaded *)
Definition np_sfc64 (l : list N) (h : bool) (u : N) : pyval :=
  PDict [("bit_generator", PStr "SFC64"); ("state", PDict [("state", PArr 64 l)]); ("has_uint32", bool_int h); ("uinteger", PInt (Z.of_N u))]%string.
Theorem C58_numpy_sfc64_refuted : forall fresh l h u, unpickle fresh (np_sfc64 l h u) = Some (Raise KeyError).
Proof.
  intros fresh l h u. unfold unpickle, np_sfc64. replace (pickle_name _) with (Ok "SFC64"%string) by reflexivity. cbv beta iota.
  replace (find_class registry "SFC64") with (Some KSFC64) by (vm_compute; reflexivity). reflexivity.
Qed.

(* ------------------------------------------------------------------ C68 *)
(* what a state must carry to be a state of class k *)
Definition named (k : klass) (v : pyval) : Prop :=
  exists l, v = PDict l /\ (assoc "bit_generator" l = Some (PStr (kname k)) \/ assoc "bit_generator" l = Some (PStr (kfqn k))).
Lemma preamble_foreign k v : ~ named k v -> exists e, preamble (kname k) (kfqn k) v = Raise e /\ (e = TypeError \/ e = ValueError).
Proof.
  intros H. destruct v as [z|x|b l|l| |i|]; cbn [preamble]; eauto. unfold get_default.
  destruct (assoc "bit_generator" l) as [w|] eqn:E.
  - destruct w; cbn; eauto. destruct (String.eqb_spec s (kname k)) as [->|N1]; [exfalso; apply H; exists l; auto|].
    destruct (String.eqb_spec s (kfqn k)) as [->|N2]; [exfalso; apply H; exists l; auto|]. cbn. eauto.
  - exists ValueError. split; [|auto]. destruct k; reflexivity.
Qed.
Lemma foreign_bind {S A} (m : M S A) name fqn v e s : preamble name fqn v = Raise e -> bind (lift (preamble name fqn v)) (fun _ => m) s = (s, Raise e).
Proof. intros H. unfold bind, lift. now rewrite H. Qed.
(* A value that is not a state of this class is rejected with TypeError or ValueError
   and the generator is left as it was, in every class. *)
Theorem C68_foreign_state_rejected :
  forall k v (o : obj k), ~ named k v -> exists e, kset k v o = Some (o, Raise e) /\ (e = TypeError \/ e = ValueError).
Proof.
  intros k v o H. destruct (preamble_foreign k v H) as (e & P & He). exists e. split; [|exact He]. clear H He.
  destruct k; cbn [kset] in *; unfold always;
  unfold aes_set, cc_set, ds_set, ef_set, hc_set, jsf_set, lcg_set, lxm_set, mt_setst, m64_setst, pcg32_set, pcg64_set, dxsm_set, pcg64_set_gen, c_set, rd_set, romu_set, sfc_set,
    sf_set, sp_set, sq_set, ty_set, xoroshiro128_set, xorshift1024_set, xoshiro256_set, xoshiro512_set, liftU, bind, lift;
  match type of P with ?p = _ => match goal with |- context [preamble ?a ?b v] => change (preamble a b v) with p end end; rewrite P; reflexivity.
Qed.
(* in particular the state of a generator of any other class *)
Theorem C68_other_class_rejected :
  forall k k' (s : obj k') (o : obj k), k <> k' -> exists e, kset k (kget k' s) o = Some (o, Raise e) /\ (e = TypeError \/ e = ValueError).
Proof.
  intros k k' s o Hk. apply C68_foreign_state_rejected. intros (l & El & H).
  pose proof (C58_states_carry_the_class_name k' s) as N. rewrite El in N. cbn [getitem] in N.
  assert (E : kfqn k' = kname k \/ kfqn k' = kfqn k) by (destruct H as [H|H]; rewrite H in N; injection N as N; auto).
  assert (F : find_class registry (kfqn k') = Some k) by (destruct E as [-> | ->]; apply C58_every_class_is_registered).
  rewrite (proj2 (C58_every_class_is_registered k')) in F. injection F as F. now apply Hk.
Qed.
(* the short name (states saved by earlier versions) is as good as the full one *)
Theorem C68_either_name : forall k l (o : obj k),
  kset k (PDict (("bit_generator"%string, PStr (kname k)) :: l)) o = kset k (PDict (("bit_generator"%string, PStr (kfqn k)) :: l)) o.
Proof. intros [] l o; reflexivity. Qed.
Example C68_case : ~ named KPCG64 (PDict [("bit_generator", PStr "PCG32"); ("state", PInt 1)]%string) /\ KPCG64 <> KPCG32.
Proof. split; [|discriminate]. intros (l & [= <-] & [H|H]); vm_compute in H; discriminate. Qed.
(* a concrete pickled object for C58: every hypothesis holds *)
Example C58_case : saved KSFC64 (Buf (Sfc 1 2 3 4 5) true 6) /\ newborn KSFC64 (Buf (Sfc 0 0 0 0 0) false 0) /\ saved KTyche (TP (Ty 1 2 3 4) true true).
Proof. repeat split. Qed.


(* every array of a state dictionary has elements of 8, 32 or 64 bits, and each element
   lies within that type: no getter loses bits *)
Fixpoint tidy (v : pyval) : Prop :=
  match v with
  | PArr b l => (b = 8 \/ b = 32 \/ b = 64) /\ Forall (fun x => x < 2 ^ b) l
  | PDict l => (fix go (l : list (string * pyval)) : Prop := match l with [] => True | (_, v) :: l => tidy v /\ go l end) l
  | _ => True
  end.
(* the buffer of dSFMT holds the bits of doubles *)
Definition fits (k : klass) : obj k -> Prop := match k with KDSFMT => fun s => Forall (fun x => x < 2 ^ 64) (lb_buf s) | _ => fun _ => True end.
Lemma forall_halves l : Forall (fun x => x < 2 ^ 64) (halves l).
Proof. apply Forall_forall. intros x I. apply in_flat_map in I. destruct I as (w & _ & [<-|[<-|[]]]); apply N.mod_lt; discriminate. Qed.
Lemma forall_pairs l : Forall LaneCtr.pwf l -> Forall (fun x => x < 2 ^ 64) (flat_map (fun p : N * N => [fst p; snd p]) l).
Proof. exact (flat2_wf l). Qed.
Lemma forall_psplit b n : Forall LaneCtr.pwf (map (fun j => LaneCtr.psplit (b + N.of_nat j)) (seq 0 n)).
Proof. apply Forall_forall. intros p I. apply in_map_iff in I. destruct I as (j & <- & _). apply LaneCtr.psplit_wf. Qed.
Theorem C58_arrays_fit : forall k (s : obj k), saved k s -> fits k s -> tidy (kget k s).
Proof.
  assert (B : forall b, tidy (bool_int b)) by (intros []; exact I).
  intros k s Hs Hf. destruct k; cbn [saved fits kget obj] in *; try contradiction.
  - destruct Hs as ((A1 & A2 & A3 & _) & A4 & _). unfold aes_get. cbn [tidy]. repeat (split; auto); [apply A1|]. rewrite A3. apply forall_pairs, forall_psplit.
  - destruct Hs as ((A1 & A2 & A3 & A4) & _). unfold cc_get. cbn [tidy]. repeat (split; auto); try apply A1; try apply A2.
  - unfold ds_get. cbn [tidy]. repeat (split; auto). apply Forall_app. split; apply forall_halves.
  - destruct Hs as ((A1 & A2 & A3 & A4 & _) & _). unfold ef_get. cbn [tidy]. repeat (split; auto).
  - destruct Hs as ((A1 & A2) & (A3 & A4) & A5 & A6 & _). unfold hc_get. cbn [tidy]. repeat (split; auto).
  - unfold jsf_get. cbn [tidy]. repeat (split; auto).
  - destruct Hs as (((A1 & A2 & A3 & A4) & _) & _). unfold lxm_get. cbn [tidy]. repeat (split; auto). unfold v4_words. auto.
  - destruct Hs as ((A1 & A2) & _). unfold mt_get. cbn [tidy]. repeat (split; auto).
  - destruct Hs as ((A1 & A2) & _). unfold m64_get. cbn [tidy]. repeat (split; auto).
  - unfold pcg32_get. cbn [tidy]. repeat (split; auto).
  - unfold pcg64_get. cbn [tidy]. repeat (split; auto).
  - unfold dxsm_get. cbn [tidy]. repeat (split; auto).
  - destruct Hs as (n & w & V & A1 & A2 & A3 & (A4 & A5) & (A6 & A7) & (A8 & A9) & _). unfold c_get. cbn [tidy]. rewrite A2.
    replace (if (Z.of_N w =? 64)%Z then 64 else 32) with w by (destruct V as [V|[V|[V|[V|[]]]]]; injection V as <- <-; reflexivity).
    assert (W : w = 8 \/ w = 32 \/ w = 64) by (destruct V as [V|[V|[V|[V|[]]]]]; injection V as <- <-; auto).
    repeat (split; auto). apply Forall_forall. intros x Ix. apply (proj1 (Forall_forall _ _) A9). rewrite <- (firstn_skipn (Z.to_nat (o_n s))). apply in_or_app. now left.
  - unfold romu_get. cbn [tidy]. repeat (split; auto).
  - unfold sfc_get. cbn [tidy]. repeat (split; auto).
  - destruct Hs as (A1 & A2 & A3 & A4 & A5 & A6 & _). unfold sf_get. cbn [tidy]. repeat (split; auto). apply unquads_ok.
  - destruct Hs as ((A1 & A2 & A3 & A4) & A5 & _). unfold sp_get. cbn [tidy]. repeat (split; auto).
    + unfold flat2. rewrite A3. apply forall_pairs, forall_psplit.
    + destruct A4 as (k & _ & _ & L & _). apply (words_of_bytes_ok 12). split; [lia|exact A5].
    + apply flat2_wf, A1.
  - unfold sq_get. cbn [tidy]. repeat (split; auto).
  - destruct Hs as (n & w & V & A1 & A2 & A3 & (A4 & A5) & (A6 & A7) & (A8 & A9) & _). unfold c_get. cbn [tidy]. rewrite A2.
    replace (if (Z.of_N w =? 64)%Z then 64 else 32) with w by (destruct V as [V|[V|[V|[V|[]]]]]; injection V as <- <-; reflexivity).
    assert (W : w = 8 \/ w = 32 \/ w = 64) by (destruct V as [V|[V|[V|[V|[]]]]]; injection V as <- <-; auto).
    repeat (split; auto). apply Forall_forall. intros x Ix. apply (proj1 (Forall_forall _ _) A9). rewrite <- (firstn_skipn (Z.to_nat (o_n s))). apply in_or_app. now left.
  - unfold ty_get. cbn [tidy]. repeat (split; auto).
  - destruct Hs as ((A1 & A2) & _). unfold xoroshiro128_get. cbn [tidy]. repeat (split; auto). unfold v2_words. auto.
  - destruct Hs as (A1 & A2 & _). unfold xorshift1024_get. cbn [tidy]. repeat (split; auto).
  - destruct Hs as ((A1 & A2 & A3 & A4) & _). unfold xoshiro256_get. cbn [tidy]. repeat (split; auto). unfold v4_words. auto.
  - destruct Hs as ((A1 & A2 & A3 & A4 & A5 & A6 & A7 & A8) & _). unfold xoshiro512_get. cbn [tidy]. repeat (split; auto). unfold v8_words. auto 10.
Qed.

Print Assumptions C58_every_class_is_registered.
Print Assumptions C58_states_carry_the_class_name.
Print Assumptions C58_round_trip_partial.
Print Assumptions C58_lcg128mix_stream.
Print Assumptions C58_lcg128mix_multiplier_refuted.
Print Assumptions C58_squares_half_refuted.
Print Assumptions C58_rdrand_retries.
Print Assumptions C58_registry_is_names.
Print Assumptions C58_unknown_name.
Print Assumptions C58_numpy_pcg64.
Print Assumptions C58_numpy_sfc64_refuted.
Print Assumptions C68_foreign_state_rejected.
Print Assumptions C68_other_class_rejected.
Print Assumptions C68_either_name.
Print Assumptions C58_arrays_fit.
