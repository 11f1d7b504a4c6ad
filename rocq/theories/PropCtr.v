(* Properties of Philox and ThreeFry, for number in {2, 4} and width in
   {32, 64} (In (n, w) variants).

   vdraws c n w k s: the values of k draws from s (None: a C array is read out
   of bounds). vstream key i: word i mod n of the block at counter i / n.
   vpos s: the index in this stream of the next value. vinv: the states that
   seeding, drawing, advancing and jumping produce (see the C20 theorems). *)
From Verif Require Import Word MultiWord Ctr Blocks MulHilo CtrPy CtrFacts Py.
From Coq Require Import String.
Open Scope N_scope.

Definition ex_ph : cst := o_st (seed_key Philox (4, 64) 12345 (2 ^ 256 - 1)).
Definition ex_tf : cst := o_st (seed_key ThreeFry (4, 64) 12345 (2 ^ 256 - 1)).
Definition ex_ph2 : cst := o_st (seed_key Philox (2, 64) 12345 7).
Definition ex_tf2 : cst := o_st (seed_key ThreeFry (2, 32) 12345 7).
Lemma in42 : In (4, 64) variants. Proof. now left. Qed.
Lemma in22 : In (2, 32) variants. Proof. now right; right; right; left. Qed.

(* -------------------------------------------------------------- C07, C08 *)
(* a seeded generator produces the blocks at counter+1, counter+2, ... *)
Theorem C07_philox_seeded_stream :
  forall n w key counter k, In (n, w) variants -> counter < 2 ^ (w * n) ->
  option_map snd (vdraws Philox n w k (o_st (seed_key Philox (n, w) key counter)))
  = Some (map (fun i => vstream Philox n w (to_words w (N.to_nat (n / 2)) key) (n * (counter + 1) + N.of_nat i)) (seq 0 (N.to_nat k))).
Proof.
  intros n w key counter k Hv Hc. destruct (vseed_inv Philox n w Hv key counter Hc) as (I & P & K & _).
  destruct (vdraws_spec Philox n w Hv k _ I) as (s' & E & _). rewrite E, P, K. cbn [option_map snd key_words].
  rewrite <- N2Z.inj_div with (m := 2), Z_N_nat, N2Z.id || idtac.
  change 2%Z with (Z.of_N 2). rewrite <- N2Z.inj_div, <- Z_N_nat, N2Z.id. reflexivity.
Qed.
Theorem C08_threefry_seeded_stream :
  forall n w key counter k, In (n, w) variants -> counter < 2 ^ (w * n) ->
  option_map snd (vdraws ThreeFry n w k (o_st (seed_key ThreeFry (n, w) key counter)))
  = Some (map (fun i => vstream ThreeFry n w (to_words w (N.to_nat n) key) (n * (counter + 1) + N.of_nat i)) (seq 0 (N.to_nat k))).
Proof.
  intros n w key counter k Hv Hc. destruct (vseed_inv ThreeFry n w Hv key counter Hc) as (I & P & K & _).
  destruct (vdraws_spec ThreeFry n w Hv k _ I) as (s' & E & _). rewrite E, P, K. cbn [option_map snd key_words].
  rewrite <- Z_N_nat, N2Z.id. reflexivity.
Qed.
(* counter=False, 0 <= delta < 2^(N*W), buffer_pos <= number: advancing is the
   same as drawing. Missing for the full property: larger and negative delta
   (refuted below), and number = 2 with the buffer position 4 of a freshly
   seeded generator (refuted below). *)
Theorem C07_philox_advance_partial :
  forall n w delta s, In (n, w) variants -> vinv Philox n w s -> (c_pos s <= Z.of_N n)%Z -> delta < 2 ^ (w * n) ->
  exists s1 vs, vdraws Philox n w delta s = Some (s1, vs) /\ vinv Philox n w (vadvance Philox n w (Z.of_N delta) false s) /\
  forall k, option_map snd (vdraws Philox n w k (vadvance Philox n w (Z.of_N delta) false s)) = option_map snd (vdraws Philox n w k s1).
Proof. intros n w delta s Hv. exact (vadvance_ok Philox n w Hv delta s). Qed.
Theorem C08_threefry_advance_partial :
  forall n w delta s, In (n, w) variants -> vinv ThreeFry n w s -> (c_pos s <= Z.of_N n)%Z -> delta < 2 ^ (w * n) ->
  exists s1 vs, vdraws ThreeFry n w delta s = Some (s1, vs) /\ vinv ThreeFry n w (vadvance ThreeFry n w (Z.of_N delta) false s) /\
  forall k, option_map snd (vdraws ThreeFry n w k (vadvance ThreeFry n w (Z.of_N delta) false s)) = option_map snd (vdraws ThreeFry n w k s1).
Proof. intros n w delta s Hv. exact (vadvance_ok ThreeFry n w Hv delta s). Qed.
(* a saved 32-bit half does not outlive advance(delta), delta <> 0 *)
Theorem C07_philox_advance_clears :
  forall n w delta counter s, delta <> 0%Z -> let s' := vadvance Philox n w delta counter s in c_has s' = false /\ c_ui s' = 0 /\ c_key s' = c_key s.
Proof. intros n w delta counter s H s'. split; [|split; [|apply pyadvance_key]]; unfold s', vadvance, pyadvance; replace (delta =? 0)%Z with false by lia; now destruct counter. Qed.
Theorem C08_threefry_advance_clears :
  forall n w delta counter s, delta <> 0%Z -> let s' := vadvance ThreeFry n w delta counter s in c_has s' = false /\ c_ui s' = 0 /\ c_key s' = c_key s.
Proof. intros n w delta counter s H s'. split; [|split; [|apply pyadvance_key]]; unfold s', vadvance, pyadvance; replace (delta =? 0)%Z with false by lia; now destruct counter. Qed.
(* where advance(delta, counter=False) really goes, for every integer delta:
   delta is reduced modulo 2^(N*W) where N*2^(N*W) is needed *)
Theorem C07_philox_advance_position :
  forall n w delta s, In (n, w) variants -> vinv Philox n w s -> (c_pos s <= Z.of_N n)%Z ->
  vpos n w (vadvance Philox n w delta false s) mod vcycle n w
  = (vpos n w s + Z.to_N (delta mod Z.of_N (vcycle n w)) mod 2 ^ (w * n)) mod vcycle n w.
Proof. intros n w delta s Hv. exact (vadvance_pos Philox n w Hv delta s). Qed.
Theorem C08_threefry_advance_position :
  forall n w delta s, In (n, w) variants -> vinv ThreeFry n w s -> (c_pos s <= Z.of_N n)%Z ->
  vpos n w (vadvance ThreeFry n w delta false s) mod vcycle n w
  = (vpos n w s + Z.to_N (delta mod Z.of_N (vcycle n w)) mod 2 ^ (w * n)) mod vcycle n w.
Proof. intros n w delta s Hv. exact (vadvance_pos ThreeFry n w Hv delta s). Qed.
(* so every negative delta >= -2^(N*W) goes to the wrong place, from every state *)
Theorem C07_philox_advance_negative_refuted :
  forall n w delta s, In (n, w) variants -> vinv Philox n w s -> (c_pos s <= Z.of_N n)%Z -> (- 2 ^ Z.of_N (w * n) <= delta < 0)%Z ->
  Z.of_N (vpos n w (vadvance Philox n w delta false s) mod vcycle n w) <> ((Z.of_N (vpos n w s) + delta) mod Z.of_N (vcycle n w))%Z.
Proof. intros n w delta s Hv. exact (vadvance_negative_wrong Philox n w Hv delta s). Qed.
Theorem C08_threefry_advance_negative_refuted :
  forall n w delta s, In (n, w) variants -> vinv ThreeFry n w s -> (c_pos s <= Z.of_N n)%Z -> (- 2 ^ Z.of_N (w * n) <= delta < 0)%Z ->
  Z.of_N (vpos n w (vadvance ThreeFry n w delta false s) mod vcycle n w) <> ((Z.of_N (vpos n w s) + delta) mod Z.of_N (vcycle n w))%Z.
Proof. intros n w delta s Hv. exact (vadvance_negative_wrong ThreeFry n w Hv delta s). Qed.
(* concretely: draw a value, advance(-1), draw again: a different value *)
Definition redraw (c : cls) (n w : N) (s : cst) : option (N * N) :=
  match vnext c n w s with
  | Some (s1, v) => match vnext c n w (vadvance c n w (-1) false s1) with
                    | Some (_, u) => Some (v, u) | None => None end
  | None => None
  end.
Definition differ (o : option (N * N)) : bool := match o with Some (v, u) => negb (u =? v) | None => false end.
Lemma differ_ok o : differ o = true -> exists v u, o = Some (v, u) /\ u <> v.
Proof. destruct o as [[v u]|]; [|discriminate]. cbn. intros H. exists v, u. split; [reflexivity|]. now destruct (N.eqb_spec u v). Qed.
Theorem C07_philox_advance_minus_one_refuted :
  exists n w s v u, In (n, w) variants /\ vinv Philox n w s /\ redraw Philox n w s = Some (v, u) /\ u <> v.
Proof.
  exists 4, 64, ex_ph. destruct (vseed_inv Philox 4 64 in42 12345 (2 ^ 256 - 1) eq_refl) as (I & _).
  assert (D : differ (redraw Philox 4 64 ex_ph) = true) by (vm_compute; reflexivity).
  destruct (differ_ok _ D) as (v & u & E & Ne). exists v, u. exact (conj in42 (conj I (conj E Ne))).
Qed.
Theorem C08_threefry_advance_minus_one_refuted :
  exists n w s v u, In (n, w) variants /\ vinv ThreeFry n w s /\ redraw ThreeFry n w s = Some (v, u) /\ u <> v.
Proof.
  exists 4, 64, ex_tf. destruct (vseed_inv ThreeFry 4 64 in42 12345 (2 ^ 256 - 1) eq_refl) as (I & _).
  assert (D : differ (redraw ThreeFry 4 64 ex_tf) = true) by (vm_compute; reflexivity).
  destruct (differ_ok _ D) as (v & u & E & Ne). exists v, u. exact (conj in42 (conj I (conj E Ne))).
Qed.
(* number = 2, freshly seeded: any even delta ends two draws short *)
Theorem C07_philox2_fresh_advance_refuted :
  forall w s d, In (2, w) variants -> vinv Philox 2 w s -> c_pos s = 4%Z -> d <> 0 -> d mod 2 = 0 -> d < 2 ^ (w * 2) ->
  (vpos 2 w (vadvance Philox 2 w (Z.of_N d) false s) + 2) mod vcycle 2 w = (vpos 2 w s + d) mod vcycle 2 w.
Proof. intros w s d. exact (fresh2_even_short Philox w s d). Qed.
Theorem C08_threefry2_fresh_advance_refuted :
  forall w s d, In (2, w) variants -> vinv ThreeFry 2 w s -> c_pos s = 4%Z -> d <> 0 -> d mod 2 = 0 -> d < 2 ^ (w * 2) ->
  (vpos 2 w (vadvance ThreeFry 2 w (Z.of_N d) false s) + 2) mod vcycle 2 w = (vpos 2 w s + d) mod vcycle 2 w.
Proof. intros w s d. exact (fresh2_even_short ThreeFry w s d). Qed.
(* counter=True: the counter moves by delta, the rest of the current block is
   dropped. Missing: delta >= 2^(N*W)/N and negative delta, same cause *)
Theorem C07_philox_advance_counter_partial :
  forall n w delta s, In (n, w) variants -> vinv Philox n w s -> 0 < delta -> delta < 2 ^ (w * n - lgn n) ->
  lv w (c_ctr (vadvance Philox n w (Z.of_N delta) true s)) = (lv w (c_ctr s) + delta) mod 2 ^ (w * n) /\
  vpos n w (vadvance Philox n w (Z.of_N delta) true s) = n * (lv w (c_ctr (vadvance Philox n w (Z.of_N delta) true s)) + 1).
Proof. intros n w delta s Hv. exact (vadvance_counter_ok Philox n w Hv delta s). Qed.
Theorem C08_threefry_advance_counter_partial :
  forall n w delta s, In (n, w) variants -> vinv ThreeFry n w s -> 0 < delta -> delta < 2 ^ (w * n - lgn n) ->
  lv w (c_ctr (vadvance ThreeFry n w (Z.of_N delta) true s)) = (lv w (c_ctr s) + delta) mod 2 ^ (w * n) /\
  vpos n w (vadvance ThreeFry n w (Z.of_N delta) true s) = n * (lv w (c_ctr (vadvance ThreeFry n w (Z.of_N delta) true s)) + 1).
Proof. intros n w delta s Hv. exact (vadvance_counter_ok ThreeFry n w Hv delta s). Qed.
Theorem C07_philox_advance_counter_minus_one_refuted :
  exists n w s, In (n, w) variants /\ vinv Philox n w s /\
  lv w (c_ctr (vadvance Philox n w (-1) true s)) <> (lv w (c_ctr s) + (2 ^ (w * n) - 1)) mod 2 ^ (w * n).
Proof.
  exists 4, 64, ex_ph. destruct (vseed_inv Philox 4 64 in42 12345 (2 ^ 256 - 1) eq_refl) as (I & _).
  split; [exact in42|]. split; [exact I|]. vm_compute. discriminate.
Qed.
Theorem C08_threefry_advance_counter_minus_one_refuted :
  exists n w s, In (n, w) variants /\ vinv ThreeFry n w s /\
  lv w (c_ctr (vadvance ThreeFry n w (-1) true s)) <> (lv w (c_ctr s) + (2 ^ (w * n) - 1)) mod 2 ^ (w * n).
Proof.
  exists 4, 64, ex_tf. destruct (vseed_inv ThreeFry 4 64 in42 12345 (2 ^ 256 - 1) eq_refl) as (I & _).
  split; [exact in42|]. split; [exact I|]. vm_compute. discriminate.
Qed.
Example C07_case : vinv Philox 4 64 ex_ph /\ (c_pos ex_ph <= 4)%Z /\ vinv Philox 2 64 ex_ph2 /\ c_pos ex_ph2 = 4%Z /\
  option_map snd (vdraws Philox 4 64 3 ex_ph) <> option_map snd (vdraws Philox 4 64 3 (vadvance Philox 4 64 1 false ex_ph)).
Proof.
  split; [exact (proj1 (vseed_inv Philox 4 64 in42 12345 (2 ^ 256 - 1) eq_refl))|]. split; [discriminate|].
  split; [exact (proj1 (vseed_inv Philox 2 64 (or_intror (or_introl eq_refl)) 12345 7 eq_refl))|]. split; [reflexivity|].
  vm_compute. discriminate.
Qed.
Example C08_case : vinv ThreeFry 4 64 ex_tf /\ (c_pos ex_tf <= 4)%Z /\ vinv ThreeFry 2 32 ex_tf2 /\ c_pos ex_tf2 = 4%Z /\
  option_map snd (vdraws ThreeFry 4 64 3 ex_tf) <> option_map snd (vdraws ThreeFry 4 64 3 (vadvance ThreeFry 4 64 1 false ex_tf)).
Proof.
  split; [exact (proj1 (vseed_inv ThreeFry 4 64 in42 12345 (2 ^ 256 - 1) eq_refl))|]. split; [discriminate|].
  split; [exact (proj1 (vseed_inv ThreeFry 2 32 (or_intror (or_intror (or_intror (or_introl eq_refl)))) 12345 7 eq_refl))|]. split; [reflexivity|].
  vm_compute. discriminate.
Qed.

(* ------------------------------------------------------------------ C17 *)
Theorem C17_philox_jump :
  forall n w k s, In (n, w) variants -> vinv Philox n w s -> 0 < k -> k < 2 ^ (w * n / 2 - lgn n) ->
  lv w (c_ctr (vjump Philox n w (Z.of_N k) s)) = (lv w (c_ctr s) + k * 2 ^ (w * n / 2)) mod 2 ^ (w * n) /\
  vpos n w (vjump Philox n w (Z.of_N k) s) = n * (lv w (c_ctr (vjump Philox n w (Z.of_N k) s)) + 1).
Proof. intros n w k s Hv. exact (vjump_spec Philox n w Hv k s). Qed.
Theorem C17_threefry_jump :
  forall n w k s, In (n, w) variants -> vinv ThreeFry n w s -> 0 < k -> k < 2 ^ (w * n / 2 - lgn n) ->
  lv w (c_ctr (vjump ThreeFry n w (Z.of_N k) s)) = (lv w (c_ctr s) + k * 2 ^ (w * n / 2)) mod 2 ^ (w * n) /\
  vpos n w (vjump ThreeFry n w (Z.of_N k) s) = n * (lv w (c_ctr (vjump ThreeFry n w (Z.of_N k) s)) + 1).
Proof. intros n w k s Hv. exact (vjump_spec ThreeFry n w Hv k s). Qed.
Theorem C17_philox_jump_composes :
  forall n w j k s, In (n, w) variants -> vinv Philox n w s -> 0 < j -> 0 < k -> j + k < 2 ^ (w * n / 2 - lgn n) ->
  vjump Philox n w (Z.of_N k) (vjump Philox n w (Z.of_N j) s) = vjump Philox n w (Z.of_N (j + k)) s.
Proof. intros n w j k s Hv. exact (vjump_compose Philox n w Hv j k s). Qed.
Theorem C17_threefry_jump_composes :
  forall n w j k s, In (n, w) variants -> vinv ThreeFry n w s -> 0 < j -> 0 < k -> j + k < 2 ^ (w * n / 2 - lgn n) ->
  vjump ThreeFry n w (Z.of_N k) (vjump ThreeFry n w (Z.of_N j) s) = vjump ThreeFry n w (Z.of_N (j + k)) s.
Proof. intros n w j k s Hv. exact (vjump_compose ThreeFry n w Hv j k s). Qed.

(* ------------------------------------------------------------------ C18 *)
Theorem C18_philox_restores : forall s t, o_ok Philox s -> c_set Philox (c_get Philox s) t = Some (s, Ok tt).
Proof. exact (c_set_get Philox). Qed.
Theorem C18_threefry_restores : forall s t, o_ok ThreeFry s -> c_set ThreeFry (c_get ThreeFry s) t = Some (s, Ok tt).
Proof. exact (c_set_get ThreeFry). Qed.
Example C18_philox_case : o_ok Philox (seed_key Philox (2, 32) 99 5) /\ o_ok ThreeFry (seed_key ThreeFry (4, 64) 99 5).
Proof.
  exact (conj (seed_ok _ 2 32 99 5 in22) (seed_ok _ 4 64 99 5 in42)).
Qed.

(* ------------------------------------------------------------------ C19 *)
(* the setter installs the new number and width before it looks at the arrays,
   and replaces them before it looks at has_uint32: both leave a changed
   generator behind when they fail *)
Theorem C19_philox_set_refuted :
  exists v o o', o_ok Philox o /\ c_set Philox v o = Some (o', Raise KeyError) /\ o_fn o' <> o_fn o.
Proof.
  exists (PDict [("bit_generator", PStr "Philox"); ("number", PInt 2); ("width", PInt 32)]%string), (seed_key Philox (4, 64) 99 5).
  eexists. split; [|split; [vm_compute; reflexivity|discriminate]].
  exact (seed_ok _ 4 64 99 5 in42).
Qed.
Theorem C19_philox_set_contents_refuted :
  exists v o o', o_ok Philox o /\ c_set Philox v o = Some (o', Raise KeyError) /\ c_ctr (o_st o') <> c_ctr (o_st o) /\ o_fn o' = o_fn o.
Proof.
  exists (PDict [("bit_generator", PStr "Philox"); ("number", PInt 2); ("width", PInt 32);
    ("state", PDict [("counter", PArr 32 [1; 1]); ("key", PArr 32 [1])]); ("buffer", PArr 32 [0; 0])]%string), (seed_key Philox (2, 32) 99 5).
  eexists. split; [|split; [vm_compute; reflexivity|split; [discriminate|reflexivity]]].
  exact (seed_ok _ 2 32 99 5 in22).
Qed.
Theorem C19_threefry_set_refuted :
  exists v o o', o_ok ThreeFry o /\ c_set ThreeFry v o = Some (o', Raise KeyError) /\ o_fn o' <> o_fn o.
Proof.
  exists (PDict [("bit_generator", PStr "ThreeFry"); ("number", PInt 2); ("width", PInt 32)]%string), (seed_key ThreeFry (4, 64) 99 5).
  eexists. split; [|split; [vm_compute; reflexivity|discriminate]].
  exact (seed_ok _ 4 64 99 5 in42).
Qed.

(* ------------------------------------------------------------------ C20 *)
(* seeded generators satisfy vinv; draws, advances and jumps keep it; and no
   draw from such a state leaves the buffer *)
Theorem C20_philox_seeded : forall n w key counter, In (n, w) variants -> counter < 2 ^ (w * n) ->
  vinv Philox n w (o_st (seed_key Philox (n, w) key counter)).
Proof. intros n w key counter Hv Hc. exact (proj1 (vseed_inv Philox n w Hv key counter Hc)). Qed.
Theorem C20_philox_draws : forall n w k s, In (n, w) variants -> vinv Philox n w s ->
  exists s' vs, vdraws Philox n w k s = Some (s', vs) /\ vinv Philox n w s'.
Proof. intros n w k s Hv Hi. destruct (vdraws_spec Philox n w Hv k s Hi) as (s' & E & I & _). eauto. Qed.
Theorem C20_philox_advance : forall n w delta b s, In (n, w) variants -> vinv Philox n w s -> vinv Philox n w (vadvance Philox n w delta b s).
Proof. intros n w delta b s Hv. exact (vadvance_inv Philox n w Hv delta b s). Qed.
Theorem C20_threefry_seeded : forall n w key counter, In (n, w) variants -> counter < 2 ^ (w * n) ->
  vinv ThreeFry n w (o_st (seed_key ThreeFry (n, w) key counter)).
Proof. intros n w key counter Hv Hc. exact (proj1 (vseed_inv ThreeFry n w Hv key counter Hc)). Qed.
Theorem C20_threefry_draws : forall n w k s, In (n, w) variants -> vinv ThreeFry n w s ->
  exists s' vs, vdraws ThreeFry n w k s = Some (s', vs) /\ vinv ThreeFry n w s'.
Proof. intros n w k s Hv Hi. destruct (vdraws_spec ThreeFry n w Hv k s Hi) as (s' & E & I & _). eauto. Qed.
Theorem C20_threefry_advance : forall n w delta b s, In (n, w) variants -> vinv ThreeFry n w s -> vinv ThreeFry n w (vadvance ThreeFry n w delta b s).
Proof. intros n w delta b s Hv. exact (vadvance_inv ThreeFry n w Hv delta b s). Qed.
(* accepted dictionaries: a negative buffer_pos makes the next draw read before
   the buffer; a number above 4 makes the setter itself write past it *)
Definition bad_dict (c : cls) (num : Z) (words key : list N) (pos : Z) : pyval :=
  PDict [("bit_generator", PStr (cname c)); ("number", PInt num); ("width", PInt 64);
    ("state", PDict [("counter", PArr 64 words); ("key", PArr 64 key)]); ("buffer", PArr 64 words);
    ("buffer_pos", PInt pos); ("has_uint32", PInt 0); ("uinteger", PInt 0)]%string.
Theorem C20_philox_buffer_pos_refuted :
  exists v o o', c_set Philox v o = Some (o', Ok tt) /\ o_fn o' = (4, 64) /\ vnext Philox 4 64 (o_st o') = None.
Proof. exists (bad_dict Philox 4 [0;0;0;0] [0;0] (-1)), (seed_key Philox (4, 64) 1 1). eexists. split; [vm_compute; reflexivity|]. split; [reflexivity|vm_compute; reflexivity]. Qed.
Theorem C20_philox_number_refuted : exists v o, c_set Philox v o = None.
Proof. exists (bad_dict Philox 6 [0;0;0;0;0;0] [0;0;0] 0), (seed_key Philox (4, 64) 1 1). vm_compute. reflexivity. Qed.
Theorem C20_threefry_buffer_pos_refuted :
  exists v o o', c_set ThreeFry v o = Some (o', Ok tt) /\ o_fn o' = (4, 64) /\ vnext ThreeFry 4 64 (o_st o') = None.
Proof. exists (bad_dict ThreeFry 4 [0;0;0;0] [0;0;0;0] (-1)), (seed_key ThreeFry (4, 64) 1 1). eexists. split; [vm_compute; reflexivity|]. split; [reflexivity|vm_compute; reflexivity]. Qed.
Theorem C20_threefry_number_refuted : exists v o, c_set ThreeFry v o = None.
Proof. exists (bad_dict ThreeFry 6 [0;0;0;0;0;0] [0;0;0;0;0;0] 0), (seed_key ThreeFry (4, 64) 1 1). vm_compute. reflexivity. Qed.

(* ------------------------------------------------------------------ C24 *)
Theorem C24_philox_no_merge :
  forall n w s t s' t' v u, In (n, w) variants -> vinv Philox n w s -> vinv Philox n w t ->
  vnext Philox n w s = Some (s', v) -> vnext Philox n w t = Some (t', u) ->
  c_key s' = c_key t' -> vpos n w s' mod vcycle n w = vpos n w t' mod vcycle n w ->
  c_key s = c_key t /\ vpos n w s mod vcycle n w = vpos n w t mod vcycle n w.
Proof. intros n w s t s' t' v u Hv. exact (vnext_no_merge Philox n w Hv s t s' t' v u). Qed.
Theorem C24_threefry_no_merge :
  forall n w s t s' t' v u, In (n, w) variants -> vinv ThreeFry n w s -> vinv ThreeFry n w t ->
  vnext ThreeFry n w s = Some (s', v) -> vnext ThreeFry n w t = Some (t', u) ->
  c_key s' = c_key t' -> vpos n w s' mod vcycle n w = vpos n w t' mod vcycle n w ->
  c_key s = c_key t /\ vpos n w s mod vcycle n w = vpos n w t mod vcycle n w.
Proof. intros n w s t s' t' v u Hv. exact (vnext_no_merge ThreeFry n w Hv s t s' t' v u). Qed.

(* ------------------------------------------------------------------ C35 *)
Theorem C35_philox2x64_permutes : forall key, words 64 1 key -> permutes (words 64 2) (philox2x64 key).
Proof. exact philox2x64_permutes. Qed.
Theorem C35_philox4x64_permutes : forall key, words 64 2 key -> permutes (words 64 4) (philox4x64 key).
Proof. exact philox4x64_permutes. Qed.
Theorem C35_philox2x32_permutes : forall key, words 32 1 key -> permutes (words 32 2) (philox2x32 key).
Proof. exact philox2x32_permutes. Qed.
Theorem C35_philox4x32_permutes : forall key, words 32 2 key -> permutes (words 32 4) (philox4x32 key).
Proof. exact philox4x32_permutes. Qed.
Theorem C35_threefry2x64_permutes : forall key, permutes (words 64 2) (threefry2x64 key).
Proof. exact threefry2x64_permutes. Qed.
Theorem C35_threefry4x64_permutes : forall key, permutes (words 64 4) (threefry4x64 key).
Proof. exact threefry4x64_permutes. Qed.
Theorem C35_threefry2x32_permutes : forall key, permutes (words 32 2) (threefry2x32 key).
Proof. exact threefry2x32_permutes. Qed.
Theorem C35_threefry4x32_permutes : forall key, permutes (words 32 4) (threefry4x32 key).
Proof. exact threefry4x32_permutes. Qed.
(* the portable multiplication of philox.h computes the true high word *)
Theorem C35_philox_c99_mulhi : forall h a b, 0 < h -> wf (2 * h) a -> wf (2 * h) b -> c99_mulhi (2 * h) a b = N.shiftr (a * b) (2 * h).
Proof. exact c99_mulhi_correct. Qed.
(* known answers: the Random123 reference vectors (philox kat_vectors for an
   all-zero counter and key), so that the model is that cipher *)
Example C35_case : words 64 2 [1; 2] /\ words 64 4 [1; 2; 3; 0xffffffffffffffff] /\
  philox4x32 [0; 0] [0; 0; 0; 0] = [0x6627e8d5; 0xe169c58d; 0xbc57ac4c; 0x9b00dbd8] /\
  philox4x64 [0; 0] [0; 0; 0; 0] = [0x16554d9eca36314c; 0xdb20fe9d672d0fdc; 0xd7e772cee186176b; 0x7e68b68aec7ba23b] /\
  threefry2x32 [0; 0] [0; 0] = [0x6b200159; 0x99ba4efe].
Proof. split; [split; [reflexivity|repeat constructor]|]. split; [split; [reflexivity|repeat constructor]|]. repeat split; vm_compute; reflexivity. Qed.

Print Assumptions C07_philox_seeded_stream.
Print Assumptions C08_threefry_seeded_stream.
Print Assumptions C07_philox_advance_partial.
Print Assumptions C08_threefry_advance_partial.
Print Assumptions C07_philox_advance_clears.
Print Assumptions C08_threefry_advance_clears.
Print Assumptions C07_philox_advance_position.
Print Assumptions C08_threefry_advance_position.
Print Assumptions C07_philox_advance_negative_refuted.
Print Assumptions C08_threefry_advance_negative_refuted.
Print Assumptions C07_philox_advance_minus_one_refuted.
Print Assumptions C08_threefry_advance_minus_one_refuted.
Print Assumptions C07_philox2_fresh_advance_refuted.
Print Assumptions C08_threefry2_fresh_advance_refuted.
Print Assumptions C07_philox_advance_counter_partial.
Print Assumptions C08_threefry_advance_counter_partial.
Print Assumptions C07_philox_advance_counter_minus_one_refuted.
Print Assumptions C08_threefry_advance_counter_minus_one_refuted.
Print Assumptions C17_philox_jump.
Print Assumptions C17_threefry_jump.
Print Assumptions C17_philox_jump_composes.
Print Assumptions C17_threefry_jump_composes.
Print Assumptions C18_philox_restores.
Print Assumptions C18_threefry_restores.
Print Assumptions C19_philox_set_refuted.
Print Assumptions C19_philox_set_contents_refuted.
Print Assumptions C19_threefry_set_refuted.
Print Assumptions C20_philox_seeded.
Print Assumptions C20_philox_draws.
Print Assumptions C20_philox_advance.
Print Assumptions C20_threefry_seeded.
Print Assumptions C20_threefry_draws.
Print Assumptions C20_threefry_advance.
Print Assumptions C20_philox_buffer_pos_refuted.
Print Assumptions C20_philox_number_refuted.
Print Assumptions C20_threefry_buffer_pos_refuted.
Print Assumptions C20_threefry_number_refuted.
Print Assumptions C24_philox_no_merge.
Print Assumptions C24_threefry_no_merge.
Print Assumptions C35_philox2x64_permutes.
Print Assumptions C35_philox4x64_permutes.
Print Assumptions C35_philox2x32_permutes.
Print Assumptions C35_philox4x32_permutes.
Print Assumptions C35_threefry2x64_permutes.
Print Assumptions C35_threefry4x64_permutes.
Print Assumptions C35_threefry2x32_permutes.
Print Assumptions C35_threefry4x32_permutes.
Print Assumptions C35_philox_c99_mulhi.
