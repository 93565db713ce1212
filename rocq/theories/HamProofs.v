(** Lemmas about slicing, caches and the Fock container. *)
From Coq Require Import String.
From Verif Require Import Base ListAux Alg ArrModel ArrProofs TensorModel EinsumModel EinsumSpec EinAux SpaceModel SpaceSpec SpaceProofs SpaceThms
  CcModel CcProofs CcThms CcRdm CcShift DampProofs HamModel HamSpec.
Set Implicit Arguments.
Local Open Scope string_scope.
Local Open Scope list_scope.
Local Open Scope nat_scope.

(** * Slices *)
Lemma skipn_seq k a n : skipn k (seq a n) = seq (a + k) (n - k).
Proof.
  revert a n. induction k as [|k IH]; intros a n.
  - rewrite Nat.add_0_r, Nat.sub_0_r. reflexivity.
  - destruct n as [|n]; [reflexivity|]. cbn [seq skipn Nat.sub]. rewrite IH. f_equal. lia.
Qed.
Lemma firstn_seq k a n : firstn k (seq a n) = seq a (Nat.min k n).
Proof.
  revert a n. induction k as [|k IH]; intros a n; [reflexivity|].
  destruct n as [|n]; [reflexivity|]. cbn [seq firstn Nat.min]. rewrite IH. reflexivity.
Qed.
Lemma positions_run n (a b : nat) : axis_positions n (Z.of_nat a, Z.of_nat b) = seq (Nat.min a n) (Nat.min b n - Nat.min a n).
Proof.
  unfold axis_positions, pyslice. cbn [fst snd]. rewrite seq_length.
  assert (B : forall i : nat, norm_bound n (Z.of_nat i) = Nat.min i n).
  { intros i. unfold norm_bound. destruct (Z.ltb_spec (Z.of_nat i) 0); lia. }
  rewrite !B, skipn_seq, firstn_seq. f_equal. lia.
Qed.
Lemma slice_positions s c a b : accepted s -> (0 < nmo s) -> orbitals_from s c a b ->
  exists sl, sp_slice s c = Ok sl /\ axis_positions (nmo s) sl = seq a (b - a) \/ b - a = 0 /\ exists sl, sp_slice s c = Ok sl /\ axis_positions (nmo s) sl = [].
Proof.
  intros A N (K & Hab & D). destruct (@slice_spec s c A K) as (S1 & S2 & _).
  destruct (S2 N (ex_intro _ a (ex_intro _ b D))) as [[x y] E]. destruct (S1 x y E) as (X0 & Y0 & SD).
  rewrite <- (Z2Nat.id x X0), <- (Z2Nat.id y Y0) in *. set (x' := Z.to_nat x) in *. set (y' := Z.to_nat y) in *.
  assert (D' : forall i, a <= i < b <-> x' <= i < y'). { intros i. rewrite <- D, SD. lia. }
  assert (DN : forall i, a <= i < b -> i < nmo s). { intros i Hi. apply D in Hi. apply Hi. }
  exists (Z.of_nat x', Z.of_nat y'). destruct (Nat.eq_dec (b - a) 0) as [Z|Z].
  - right. split; [exact Z|]. exists (Z.of_nat x', Z.of_nat y'). split; [exact E|]. rewrite positions_run.
    assert (y' <= x'). { destruct (Nat.le_gt_cases y' x') as [H|H]; [exact H|]. assert (a <= x' < b) by (apply D'; lia). lia. }
    replace (Nat.min y' (nmo s) - Nat.min x' (nmo s)) with 0 by lia. reflexivity.
  - left. split; [exact E|]. rewrite positions_run.
    assert (a <= a < b) as H1 by lia. assert (a <= b - 1 < b) as H2 by lia. apply D' in H1. apply D' in H2.
    assert (x' <= x' < y') as H3 by lia. assert (x' <= y' - 1 < y') as H4 by lia. apply D' in H3. apply D' in H4.
    pose proof (DN (b - 1) ltac:(lia)). f_equal; lia.
Qed.
Lemma slice_run s c a b : accepted s -> 0 < nmo s -> orbitals_from s c a b ->
  exists sl, sp_slice s c = Ok sl /\ axis_positions (nmo s) sl = seq a (b - a).
Proof.
  intros A N O. destruct (@slice_positions s c a b A N O) as [sl [[E P]|[Z (sl' & E & P)]]].
  - exists sl. split; assumption.
  - exists sl'. split; [exact E|]. rewrite P, Z. reflexivity.
Qed.

Section Gather.
  Context {A : Type} (d : A).
  Lemma gather_ok (a : arr A) ixs : wf (gather d a ixs) /\ shp (gather d a ixs) = map (@List.length nat) ixs /\
    forall idx, inb (map (@List.length nat) ixs) idx -> aget d (gather d a ixs) idx = aget d a (map (fun p => nth (fst p) (snd p) 0) (combine idx ixs)).
  Proof.
    unfold gather. split; [apply tab_wf|]. split; [reflexivity|]. intros idx H. rewrite (@aget_tab A d) by exact H. reflexivity.
  Qed.
End Gather.

Lemma memo_hit V key (r : result V) m v : dget pystr_eq_dec key m = Some v -> memo key r m = (m, Ok v).
Proof. unfold memo. intros ->. reflexivity. Qed.
(** A cache of which every entry is what would be computed afresh. *)
Definition sound {V} (fresh : pystr -> result V) (m : dict pystr V) : Prop := forall k v, dget pystr_eq_dec k m = Some v -> fresh k = Ok v.
Lemma sound_nil V (fresh : pystr -> result V) : sound fresh []. Proof. intros k v H. discriminate. Qed.
Lemma memo_sound V (fresh : pystr -> result V) key m : sound fresh m ->
  sound fresh (fst (memo key (fresh key) m)) /\ snd (memo key (fresh key) m) = fresh key.
Proof.
  intros S. unfold memo. destruct (dget pystr_eq_dec key m) as [v|] eqn:E.
  - split; [exact S|]. symmetry. apply S, E.
  - destruct (fresh key) as [v|e] eqn:Ef; [|split; [exact S|reflexivity]]. split; [|reflexivity].
    intros k u. cbn [fst]. rewrite (@dget_dset _ _ pystr_eq_dec). destruct (pystr_eq_dec k key) as [->|]; [intros [= <-]; exact Ef|apply S].
Qed.

Lemma nth_skip {A} k (l : list A) i d : nth i (skipn k l) d = nth (k + i) l d.
Proof. revert l. induction k as [|k IH]; intros l; [reflexivity|]. destruct l as [|x l]; [destruct i; reflexivity|]. apply IH. Qed.
Lemma nth_first {A} k (l : list A) i d : i < k -> nth i (firstn k l) d = nth i l d.
Proof. revert l i. induction k as [|k IH]; intros l i H; [lia|]. destruct l as [|x l]; [reflexivity|]. destruct i as [|i]; [reflexivity|]. cbn. apply IH. lia. Qed.
