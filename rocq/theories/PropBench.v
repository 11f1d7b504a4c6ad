(* C23: _benchmark draws and drops exactly the numbers asked for. *)
From Verif Require Import Word Buffer32 Convert Bench.
From Verif Require Py.
From Coq Require Import String.
Open Scope string_scope.

(* the state afterwards is the one after random_raw(cnt), for a generator whose raw numbers are its 64-bit ones *)
Theorem C23_benchmark_raw : forall A (n64 nd : A -> A * N) cnt a, (0 <= cnt)%Z ->
  fst (benchmark n64 nd cnt "uint64" a) = fst (random_raw n64 true (SzInt cnt) a) /\ snd (benchmark n64 nd cnt "uint64" a) = Py.Ok tt.
Proof.
  intros A n64 nd cnt a H. unfold benchmark, random_raw, raw_count, np_size. cbn [String.eqb Ascii.eqb Bool.eqb fst snd].
  destruct (Z.ltb_spec cnt 0) as [?|_]; [lia|]. cbn [fst]. rewrite Z_N_nat. split; reflexivity.
Qed.
(* two calls are like one call with the sum, for each method *)
Theorem C23_benchmark_split : forall A (n64 nd : A -> A * N) m n method a, (0 <= m)%Z -> (0 <= n)%Z -> method = "uint64" \/ method = "double" ->
  fst (benchmark n64 nd n method (fst (benchmark n64 nd m method a))) = fst (benchmark n64 nd (m + n) method a).
Proof.
  assert (S : forall A (f : A -> A * N) m n a, fst (raws f n (fst (raws f m a))) = fst (raws f (m + n) a)).
  { intros A f m. induction m as [|m IH]; intros n a; [reflexivity|]. cbn [Nat.add raws]. destruct (f a) as [a1 x]. specialize (IH n a1).
    destruct (raws f m a1) as [a2 l], (raws f (m + n) a1) as [a3 l']. exact IH. }
  intros A n64 nd m n method a Hm Hn [-> | ->]; unfold benchmark; cbn [String.eqb Ascii.eqb Bool.eqb fst]; rewrite S, Z2Nat.inj_add by assumption; reflexivity.
Qed.
(* nothing is drawn for a negative number or an unknown method *)
Theorem C23_benchmark_nothing : forall A (n64 nd : A -> A * N) cnt method a,
  ((cnt <= 0)%Z -> fst (benchmark n64 nd cnt method a) = a) /\
  (method <> "uint64" -> method <> "double" -> benchmark n64 nd cnt method a = (a, Py.Raise Py.ValueError)).
Proof.
  intros A n64 nd cnt method a. unfold benchmark. split.
  - intros H. replace (Z.to_nat cnt) with O by lia. destruct (String.eqb method "uint64"); [reflexivity|]. destruct (String.eqb method "double"); reflexivity.
  - intros H1 H2. destruct (String.eqb_spec method "uint64") as [?|_]; [contradiction|]. destruct (String.eqb_spec method "double") as [?|_]; [contradiction | reflexivity].
Qed.
Example C23_benchmark_case : benchmark (fun s : N => (s + 1, s)%N) (fun s => (s + 2, s)%N) 3 "uint64" 10%N = (13%N, Py.Ok tt) /\
  benchmark (fun s : N => (s + 1, s)%N) (fun s => (s + 2, s)%N) 3 "double" 10%N = (16%N, Py.Ok tt).
Proof. split; reflexivity. Qed.

Print Assumptions C23_benchmark_raw.
Print Assumptions C23_benchmark_split.
Print Assumptions C23_benchmark_nothing.
