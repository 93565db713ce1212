(** Generated functions do not depend on the order of the orbitals. *)
From Coq Require Import List String Ring Permutation Lia.
From Verif Require Import Base Alg ArrModel ArrProofs ListAux EinsumModel CgModel CgSpec CgFormSpec CgProofs CgPolyDom CgCompare CgCompareProofs CgRot CgAll CgAllRot CgBuild CgOrderSpec CgNames CgTables CgPairs CgAgree.
Import ListNotations.
Set Implicit Arguments.
Local Open Scope nat_scope.

Section Order.
  Variable F : fld.
  Variable sz : cls -> nat.
  Add Ring RringOrder : (rth F).
  Local Open Scope rng_scope.

  Section Matrix.
  Variable at_ : cls -> nat -> nat.
  Hypothesis Hat : reordering sz at_.
  Definition pmatrix (c : cls) (i j : nat) : F := if (at_ c i =? j)%nat then 1 else 0.

  Lemma at_lt c i : (i < sz c)%nat -> (at_ c i < sz c)%nat.
  Proof. intros Hi. assert (I : In (at_ c i) (seq 0 (sz c))) by (apply (Permutation_in _ (Hat c)), in_map, in_seq; lia). apply in_seq in I. lia. Qed.
  Lemma at_inj c i j : (i < sz c)%nat -> (j < sz c)%nat -> at_ c i = at_ c j -> i = j.
  Proof.
    intros Hi Hj E. assert (N : NoDup (map (at_ c) (seq 0 (sz c)))) by (eapply Permutation_NoDup; [apply Permutation_sym, Hat|apply seq_NoDup]).
    pose proof (proj1 (NoDup_nth _ (at_ c 0)) N i j) as H. rewrite map_length, seq_length, !map_nth, !seq_nth in H by lia. apply H; assumption.
  Qed.
  Lemma pmatrix_orthogonal : orthogonal F sz pmatrix.
  Proof.
    intros c i j Hi Hj. unfold pmatrix. split.
    - transitivity (rsum (map (fun k => (if (at_ c i =? k)%nat then 1 else 0) * (if (at_ c j =? k)%nat then 1 else 0 : F)) (seq 0 (sz c)))); [reflexivity|].
      rewrite (@sum_delta F (sz c) (fun k => if (at_ c j =? k)%nat then 1 else 0)) by (apply at_lt; exact Hi).
      destruct (Nat.eqb_spec (at_ c j) (at_ c i)) as [E|N], (Nat.eqb_spec i j) as [E'|N']; try reflexivity.
      + exfalso. apply N'. apply (@at_inj c i j Hi Hj). congruence.
      + exfalso. apply N. congruence.
    - pose (g := fun k => (if (k =? i)%nat then 1 else 0) * (if (k =? j)%nat then 1 else 0) : F).
      transitivity (rsum (map g (map (at_ c) (seq 0 (sz c))))); [rewrite map_map; reflexivity|].
      transitivity (rsum (map g (seq 0 (sz c)))); [apply rsum_perm, Permutation_map, Hat|].
      transitivity (rsum (map (fun k => (if (i =? k)%nat then 1 else 0) * (if (k =? j)%nat then 1 else 0 : F)) (seq 0 (sz c)))).
      { apply rsum_map_ext. intros k _. unfold g. rewrite (Nat.eqb_sym k i). reflexivity. }
      rewrite (@sum_delta F (sz c) (fun k => if (k =? j)%nat then 1 else 0)) by exact Hi. reflexivity.
  Qed.
  Lemma rotated_moved cs : forall (f : list nat -> F) idx, inb (map sz cs) idx -> rotated F sz pmatrix cs f idx = f (moved at_ cs idx).
  Proof.
    intros f idx Hi. rewrite rotated_rot by (apply inb_length in Hi; rewrite map_length in Hi; exact Hi). revert f idx Hi.
    induction cs as [|c cs IH]; intros f idx Hi; inversion Hi as [|i n idx' l Hlt Hi']; subst; [reflexivity|].
    cbn [rot moved combine map fst snd]. unfold pmatrix at 1. rewrite (@sum_delta F (sz c) (fun x => rot F sz pmatrix cs (fun js => f (x :: js)) idx')) by (apply at_lt; exact Hlt).
    rewrite IH by exact Hi'. reflexivity.
  Qed.
  End Matrix.

  Lemma reorder_sound p at_ : check_rot p = true -> reordering sz at_ ->
    forall method1 method2 path1 path2 (e1 e2 : env F), path_ok path1 -> path_ok path2 ->
    args_ok sz (p_in p) e1 -> args_ok sz (p_in p) e2 ->
    (forall x cs, In (x, cs) (p_in p) -> forall idx, inb (map sz cs) idx -> tens F (e2 x) idx = tens F (e1 x) (moved at_ cs idx)) ->
    exists r1 r2, run method1 path1 sz p e1 = Ok r1 /\ run method2 path2 sz p e2 = Ok r2 /\
      forall k x cs, nth_error (p_out p) k = Some (x, cs) -> forall idx, inb (map sz cs) idx -> entry F r2 k idx = entry F r1 k (moved at_ cs idx).
  Proof.
    intros Hc Hat m1 m2 p1 p2 e1 e2 P1 P2 A1 A2 Hr.
    destruct (@check_rot_sound p Hc F sz (pmatrix at_) (pmatrix_orthogonal Hat) (fun b : bool => if b then m2 else m1) (fun b : bool => if b then p2 else p1) (fun b : bool => if b then e2 else e1))
      as (rs & A & B); [intros []; assumption|intros []; assumption| |].
    { intros x cs Hx idx Hi. rewrite (rotated_moved Hat) by exact Hi. exact (Hr x cs Hx idx Hi). }
    exists (rs false), (rs true). split; [apply (A false)|]. split; [apply (A true)|]. intros k x cs Hk idx Hi. rewrite (B k x cs Hk idx Hi). apply (rotated_moved Hat). exact Hi.
  Qed.
End Order.

Section Positions.
  Variable F : fld.
  Variable sz : cls -> nat.
  Variable split : cls -> list cls.
  Hypothesis Hsplit : splits sz split.
  Variable pos : cls -> cls -> nat -> nat.
  Hypothesis Hpos : positions sz split pos.

  (** The order that puts the blocks one after another. *)
  Definition blocks_at (bs : list cls) (c : cls) (k : nat) : nat := nth k (flat_map (fun b => map (pos c b) (seq 0 (sz b))) bs) 0.
  Lemma blocks_at_ok c b i : forall bs, In b bs -> i < sz b -> blocks_at bs c (offset sz bs b + i) = pos c b i.
  Proof.
    unfold blocks_at. induction bs as [|b' bs IH]; intros Hb Hi; [destruct Hb|]. cbn [offset flat_map]. destruct (Nat.eqb_spec b b') as [->|N].
    - rewrite app_nth1 by (rewrite map_length, seq_length; lia). rewrite (nth_indep _ 0 (pos c b' 0)) by (rewrite map_length, seq_length; lia).
      rewrite map_nth, seq_nth by lia. reflexivity.
    - destruct Hb as [Hb|Hb]; [congruence|]. rewrite app_nth2 by (rewrite map_length, seq_length; lia). rewrite map_length, seq_length.
      replace (sz b' + offset sz bs b + i - sz b') with (offset sz bs b + i) by lia. apply IH; assumption.
  Qed.
  Definition order (c : cls) (k : nat) : nat := blocks_at (split c) c k.
  Lemma order_ok : reordering sz order.
  Proof.
    intros c. unfold order, blocks_at. pose proof (Hpos c) as P. pose proof (Permutation_length P) as L. rewrite seq_length in L.
    replace (map (fun k => nth k (flat_map (fun b => map (pos c b) (seq 0 (sz b))) (split c)) 0) (seq 0 (sz c))) with (flat_map (fun b => map (pos c b) (seq 0 (sz b))) (split c)); [exact P|].
    apply nth_ext with (d := 0) (d' := 0); [rewrite map_length, seq_length; exact L|]. intros n Hn. rewrite L in Hn.
    rewrite (nth_indep (map _ _) 0 (nth 0 (flat_map (fun b => map (pos c b) (seq 0 (sz b))) (split c)) 0)) by (rewrite map_length, seq_length; exact Hn).
    rewrite (map_nth (fun k => nth k (flat_map (fun b => map (pos c b) (seq 0 (sz b))) (split c)) 0)), seq_nth by exact Hn. reflexivity.
  Qed.
  Lemma located_moved cs : forall pat idx, In pat (patterns split cs) -> inb (map sz pat) idx -> moved order cs (places sz split cs pat idx) = located pos cs pat idx.
  Proof.
    intros pat idx Hp. apply patterns_in in Hp. revert idx. induction Hp as [|b c pat cs Hb Hp IH]; intros idx Hi; inversion Hi as [|i ? idx' ? Hlt Hi']; subst; [reflexivity|].
    specialize (IH idx' Hi'). unfold moved, places, located in *. cbn [combine map fst snd]. f_equal; [|exact IH]. unfold order. apply blocks_at_ok; assumption.
  Qed.

  Lemma offset_surj : forall bs i, NoDup bs -> i < list_sum (map sz bs) -> exists b j, In b bs /\ j < sz b /\ i = offset sz bs b + j.
  Proof.
    induction bs as [|b bs IH]; intros i Hn Hi; [cbn in Hi; lia|]. cbn [map list_sum fold_right] in Hi. inversion Hn as [|? ? N1 N2]; subst.
    destruct (Nat.ltb_spec i (sz b)) as [L|L].
    - exists b, i. split; [left; reflexivity|]. split; [exact L|]. cbn [offset]. rewrite Nat.eqb_refl. reflexivity.
    - destruct (IH (i - sz b) N2) as (b' & j & H1 & H2 & H3); [unfold list_sum; lia|]. exists b', j. split; [right; exact H1|]. split; [exact H2|].
      cbn [offset]. destruct (Nat.eqb_spec b' b) as [->|N]; [contradiction|]. lia.
  Qed.
  Lemma places_surj cs : forall idx, inb (map sz cs) idx -> exists pat i, In pat (patterns split cs) /\ inb (map sz pat) i /\ idx = places sz split cs pat i.
  Proof.
    induction cs as [|c cs IH]; intros idx Hi; inversion Hi as [|k n idx' l Hlt Hi']; subst.
    - exists [], []. split; [left; reflexivity|]. split; [constructor|reflexivity].
    - destruct (IH idx' Hi') as (pat & i & H1 & H2 & ->). destruct (Hsplit c) as (Hn & Hsum). rewrite Hsum in Hlt.
      destruct (@offset_surj (split c) k Hn Hlt) as (b & j & B1 & B2 & ->). exists (b :: pat), (j :: i). split.
      + apply patterns_in. apply patterns_in in H1. constructor; assumption.
      + split; [constructor; assumption|]. reflexivity.
  Qed.

  Lemma any_order q T eB T' eR (e2 : env F) method path : check_rot q = true -> NoDup (map fst (p_in q)) -> path_ok path -> args_ok sz (p_in q) e2 ->
    (forall x cs, In (x, cs) (p_in q) -> given_at sz split pos T eB x cs (tens F (e2 x))) ->
    (forall e2', args_ok sz (p_in q) e2' -> (forall x cs, In (x, cs) (p_in q) -> given_by sz split T eB x cs (tens F (e2' x))) ->
       exists r2, run method path sz q e2' = Ok r2 /\ forall k x cs, nth_error (p_out q) k = Some (x, cs) -> given_by sz split T' eR x cs (entry F r2 k)) ->
    exists r2, run method path sz q e2 = Ok r2 /\ forall k x cs, nth_error (p_out q) k = Some (x, cs) -> given_at sz split pos T' eR x cs (entry F r2 k).
  Proof.
    intros Hc Hn P A2 G2 H. pose (e2' := build sz split T eB (p_in q)).
    assert (A2' : args_ok sz (p_in q) e2') by (apply build_args; exact Hn).
    assert (G2' : forall x cs, In (x, cs) (p_in q) -> given_by sz split T eB x cs (tens F (e2' x))) by (apply build_given; assumption).
    destruct (H e2' A2' G2') as (r2' & R2' & V).
    destruct (@reorder_sound F sz q order Hc order_ok method method path path e2 e2' P P A2 A2') as (r2 & r2'' & R2 & R2'' & E).
    { intros x cs Hx idx Hi. destruct (@places_surj cs idx Hi) as (pat & i & H1 & H2 & ->). rewrite located_moved by assumption. rewrite (G2' x cs Hx pat i H1 H2). symmetry. exact (G2 x cs Hx pat i H1 H2). }
    rewrite R2' in R2''. injection R2'' as <-. exists r2. split; [exact R2|]. intros k x cs Hk pat idx Hp Hi.
    rewrite <- located_moved by assumption. rewrite <- (E k x cs Hk) by (apply places_inb; assumption). exact (V k x cs Hk pat idx Hp Hi).
  Qed.
End Positions.

Lemma general_rot : forallb (fun r => check_rot (snd (snd r))) unrestricted_general = true.
Proof. vm_compute. reflexivity. Qed.
Lemma spin_orbital_agree_any name p q : In (name, (p, q)) unrestricted_general ->
  forall (F : fld) sz, characteristic_zero F -> splits sz spin_split ->
  forall pos, positions sz spin_split pos ->
  forall method1 method2 path1 path2, path_ok path1 -> path_ok path2 ->
  forall eB e1 e2 : env F, symmetric sz spin_blocks_symmetries spin_blocks eB ->
  args_ok sz (p_in p) e1 -> (forall x cs, In (x, cs) (p_in p) -> given_by sz id_split unrestricted eB x cs (tens F (e1 x))) ->
  args_ok sz (p_in q) e2 -> (forall x cs, In (x, cs) (p_in q) -> given_at sz spin_split pos spin_orbital eB x cs (tens F (e2 x))) ->
  exists r1 r2, run method1 path1 sz p e1 = Ok r1 /\ run method2 path2 sz q e2 = Ok r2 /\
    forall k x cs, nth_error (p_out q) k = Some (x, cs) -> given_at sz spin_split pos spin_orbital_results (results F (p_out p) r1) x cs (entry F r2 k).
Proof.
  intros H F sz H0 Hs pos Hpos m1 m2 p1 p2 P1 P2 eB e1 e2 HS A1 G1 A2 G2.
  assert (Hc : check_rot q = true) by (pose proof general_rot as G; rewrite forallb_forall in G; apply (G _ H)).
  assert (Hn : NoDup (map fst (p_in q))).
  { pose proof pairs_ok as A. rewrite forallb_forall in A. specialize (A (name, (p, q))). unfold pair_ok in A. cbn [fst snd] in A.
    assert (Hin : In (name, (p, q)) (restricted_unrestricted ++ restricted_unrestricted_rounded ++ unrestricted_general ++ unrestricted_general_rounded)) by (rewrite !in_app_iff; tauto).
    apply A, andb_prop in Hin as [_ Hin]. apply nodup_names_ok. exact Hin. }
  pose (e2' := build sz spin_split spin_orbital eB (p_in q)).
  destruct (@spin_orbital_agree name p q H F sz H0 Hs m1 m2 p1 p2 P1 P2 eB e1 e2' HS A1 G1) as (r1 & _ & R1 & _ & _); [apply build_args; exact Hn|apply build_given; assumption|].
  exists r1. destruct (@any_order F sz spin_split Hs pos Hpos q spin_orbital eB spin_orbital_results (results F (p_out p) r1) e2 m2 p2 Hc Hn P2 A2 G2) as (r2 & R2 & V).
  { intros e2'' A2'' G2''. destruct (@spin_orbital_agree name p q H F sz H0 Hs m1 m2 p1 p2 P1 P2 eB e1 e2'' HS A1 G1 A2'' G2'') as (r1' & r2' & R1' & R2' & V').
    rewrite R1 in R1'. injection R1' as <-. exists r2'. split; [exact R2'|exact V']. }
  exists r2. auto.
Qed.
Lemma order_of_orbitals (name : string) p : In (name, p) generated ->
  forall (F : fld) sz at_, reordering sz at_ ->
  forall method1 method2 path1 path2 (e1 e2 : env F), path_ok path1 -> path_ok path2 ->
  args_ok sz (p_in p) e1 -> args_ok sz (p_in p) e2 ->
  (forall x cs, In (x, cs) (p_in p) -> forall idx, inb (map sz cs) idx -> tens F (e2 x) idx = tens F (e1 x) (moved at_ cs idx)) ->
  exists r1 r2, run method1 path1 sz p e1 = Ok r1 /\ run method2 path2 sz p e2 = Ok r2 /\
    forall k x cs, nth_error (p_out p) k = Some (x, cs) -> forall idx, inb (map sz cs) idx -> entry F r2 k idx = entry F r1 k (moved at_ cs idx).
Proof.
  intros H F sz at_. apply reorder_sound. pose proof generated_rot as G. rewrite forallb_forall in G. exact (G _ H).
Qed.
