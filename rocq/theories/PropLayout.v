(* C52: assignment of states whose arrays are views *)
From Coq Require Import NArith ZArith List Lia String Bool.
From Verif Require Import Word Py Buffer32 LaneCtr AesPy Speck Hc128 Hc128Facts Efiix Xoshiro Layout PropLane PropHc128 PropSmall PropXoshiro.
Import ListNotations.
Open Scope Z_scope.

(* the setters that read elements: equal arrays are enough, whatever the layout *)
Theorem C52_element_setters S (P : S -> Prop) get set m d s t : restores P get set -> P s -> P t -> seen (elements m) d = Some (get s) ->
  assign_elements set m d t = Some (s, Ok tt).
Proof. intros R H K E. unfold assign_elements. rewrite E. cbn [option_map]. now rewrite (R s t H K). Qed.
Theorem C52_xoshiro m d : (forall s t, xoshiro256_wf s -> xoshiro256_wf t -> seen (elements m) d = Some (xoshiro256_get s) -> assign_elements xoshiro256_set m d t = Some (s, Ok tt))
  /\ (forall s t, xoshiro512_wf s -> xoshiro512_wf t -> seen (elements m) d = Some (xoshiro512_get s) -> assign_elements xoshiro512_set m d t = Some (s, Ok tt))
  /\ (forall s t, xoroshiro128_wf s -> xoroshiro128_wf t -> seen (elements m) d = Some (xoroshiro128_get s) -> assign_elements xoroshiro128_set m d t = Some (s, Ok tt))
  /\ (forall s t, xorshift1024_wf s -> xorshift1024_wf t -> seen (elements m) d = Some (xorshift1024_get s) -> assign_elements xorshift1024_set m d t = Some (s, Ok tt))
  /\ (forall s t, lxm_wf s -> lxm_wf t -> seen (elements m) d = Some (lxm_get s) -> assign_elements lxm_set m d t = Some (s, Ok tt)).
Proof.
  split; [|split; [|split; [|split]]]; intros s t; apply C52_element_setters.
  - exact C18_xoshiro256_restores.
  - exact C18_xoshiro512_restores.
  - exact C18_xoroshiro128_restores.
  - exact C18_xorshift1024_restores.
  - exact C18_lxm_restores.
Qed.
(* SPECK128, HC128 and EFIIX64 read the data pointer: right for contiguous arrays *)
Theorem C52_speck_contiguous_partial m d s t : sp_ok s -> sp_ok t -> all_contiguous d -> seen (elements m) d = Some (sp_get s) -> assign sp_set m d t = Some (s, Ok tt).
Proof. intros H K C E. unfold assign. rewrite seen_contiguous, E by exact C. cbn [option_map]. now rewrite (C18_speck_restores s t H K). Qed.
Theorem C52_hc128_contiguous_partial m d s t : hc_ok s -> all_contiguous d -> seen (elements m) d = Some (hc_get s) -> assign hc_set m d t = Some (s, Ok tt).
Proof. intros H C E. unfold assign. rewrite seen_contiguous, E by exact C. cbn [option_map]. now rewrite (C18_hc128_restores s t H). Qed.
Theorem C52_efiix_contiguous_partial m d s t : efpy_ok s -> all_contiguous d -> seen (elements m) d = Some (ef_get s) -> assign ef_set m d t = Some (s, Ok tt).
Proof. intros H C E. unfold assign. rewrite seen_contiguous, E by exact C. cbn [option_map]. now rewrite (C18_efiix_restores s t H). Qed.

(* a view of every second element holds the saved array; the setter takes the elements in between as well *)
Definition ex_ef : efpy := Buf (EF (map N.of_nat (seq 1 16)) (repeat 7 32)%N 1 2 3 4) true 5.
Definition ex_ef_dict (w : view) : lpy :=
  LDict [("bit_generator", LV (PStr "randomgen.efiix64.EFIIX64"));
         ("state", LDict [("indirection_table", LView 64 w); ("iteration_table", LV (PArr 64 (repeat 7 32)%N));
                          ("i", LV (PInt 1)); ("a", LV (PInt 2)); ("b", LV (PInt 3)); ("c", LV (PInt 4))]);
         ("has_uint32", LV (PInt 1)); ("uinteger", LV (PInt 5))]%string.
Theorem C52_efiix_strided_refuted : exists m d s t, efpy_ok s /\ seen (elements m) d = Some (ef_get s)
  /\ exists s', assign ef_set m d t = Some (s', Ok tt) /\ s' <> s.
Proof.
  exists (spread (map N.of_nat (seq 1 16)) 2 0 32), (ex_ef_dict {| base := 0; stride := 2; vlen := 16 |}), ex_ef, ex_ef. split; [|split].
  - repeat split; repeat constructor.
  - vm_compute. reflexivity.
  - eexists. split; [vm_compute; reflexivity|vm_compute; discriminate].
Qed.
(* a reversed view: element 0 is the last in memory, and reading on from there leaves the array *)
Theorem C52_efiix_reversed_refuted : exists m d s t, efpy_ok s /\ seen (elements m) d = Some (ef_get s) /\ assign ef_set m d t = None.
Proof.
  exists (spread (map N.of_nat (rev (seq 1 16))) 1 0 16), (ex_ef_dict {| base := 15; stride := -1; vlen := 16 |}), ex_ef, ex_ef. split; [|split; vm_compute; reflexivity].
  repeat split; repeat constructor.
Qed.
Definition ex_sp_dict (w : view) : lpy :=
  LDict [("bit_generator", LV (PStr "randomgen.speck128.SPECK128"));
         ("state", LDict [("ctr", LView 64 w); ("buffer", LV (PArr 64 (words_of_bytes 12 (l_buf (core ex_sp)))));
                          ("round_key", LV (PArr 64 (flat2 (sk_rk (l_key (core ex_sp))))));
                          ("offset", LV (PInt (l_off (core ex_sp)))); ("rounds", LV (PInt 34))]);
         ("has_uint32", LV (bool_int (has32 ex_sp))); ("uinteger", LV (PInt (Z.of_N (u32 ex_sp))))]%string.
Theorem C52_speck_strided_refuted : exists m d s t, sp_ok s /\ seen (elements m) d = Some (sp_get s)
  /\ exists s', assign sp_set m d t = Some (s', Ok tt) /\ l_ctr (core s') <> l_ctr (core s).
Proof.
  exists (spread (flat2 (l_ctr (core ex_sp))) 2 0 24), (ex_sp_dict {| base := 0; stride := 2; vlen := 12 |}), ex_sp, ex_sp. split; [exact ex_sp_ok|]. split.
  - vm_compute. reflexivity.
  - eexists. split; [vm_compute; reflexivity|vm_compute; discriminate].
Qed.
Definition ex_hc : hc := HC (repeat 1 512)%N (repeat 2 512)%N (repeat 3 16)%N 0 0.
Theorem C52_hc128_strided_refuted : exists m d s t, hc_ok s /\ seen (elements m) d = Some (hc_get s)
  /\ exists s', assign hc_set m d t = Some (s', Ok tt) /\ hc_buf s' <> hc_buf s.
Proof.
  exists (spread (repeat 3 16)%N 2 0 32),
    (LDict [("bit_generator", LV (PStr "randomgen.hc128.HC128"));
            ("state", LDict [("p", LV (PArr 32 (repeat 1 512)%N)); ("q", LV (PArr 32 (repeat 2 512)%N)); ("hc_idx", LV (PInt 0));
                             ("buffer", LView 32 {| base := 0; stride := 2; vlen := 16 |}); ("buffer_idx", LV (PInt 0))])]%string), ex_hc, ex_hc. split; [|split].
  - repeat split; try reflexivity; try (apply Forall_forall; intros x X; apply repeat_spec in X; subst x; reflexivity); vm_compute; congruence.
  - vm_compute. reflexivity.
  - eexists. split; [vm_compute; reflexivity|vm_compute; discriminate].
Qed.
(* a slice of a longer array is contiguous *)
Example C52_case : let m := spread (map N.of_nat (seq 1 20)) 1 0 20 in
  let d := ex_ef_dict {| base := 0; stride := 1; vlen := 16 |} in
  all_contiguous d /\ seen (elements m) d = Some (ef_get ex_ef) /\ assign ef_set m d ex_ef = Some (ex_ef, Ok tt).
Proof. cbv zeta. split; [|split; vm_compute; reflexivity]. cbn. unfold contiguous. cbn. tauto. Qed.

Print Assumptions C52_element_setters.
Print Assumptions C52_xoshiro.
Print Assumptions C52_speck_contiguous_partial.
Print Assumptions C52_hc128_contiguous_partial.
Print Assumptions C52_efiix_contiguous_partial.
Print Assumptions C52_efiix_strided_refuted.
Print Assumptions C52_efiix_reversed_refuted.
Print Assumptions C52_speck_strided_refuted.
Print Assumptions C52_hc128_strided_refuted.
