(** Proofs: the starting guesses of the equation-of-motion solvers. *)
From Coq Require Import Permutation Sorted.
From Verif Require Import Base ListAux Alg ArrModel SpaceModel AnsatzModel VecModel CcModel DavModel DavSpec EomModel EomSpec.
Set Implicit Arguments.
Local Open Scope nat_scope.
Local Open Scope list_scope.

Section Sort.
  Variables (F : fld) (ltb : F -> F -> bool).
  Hypothesis HO : strict_order ltb.
  Variable key : nat -> F.
  Local Notation before := (preferred ltb key).
  Lemma before_trans p q r : before p q -> before q r -> before p r.
  Proof.
    unfold preferred. intros [A|[A A']] [B|[B B']].
    - left. exact (lt_trans HO _ _ _ A B).
    - left. rewrite <- B. exact A.
    - left. rewrite A. exact B.
    - right. split; [congruence|lia].
  Qed.
  Lemma insert_by_perm i l : Permutation (insert_by F ltb key i l) (i :: l).
  Proof.
    induction l as [|j l IH]; cbn [insert_by]; [apply Permutation_refl|]. destruct (ltb (key j) (key i)); [|apply Permutation_refl].
    apply perm_trans with (j :: i :: l); [constructor; exact IH|constructor].
  Qed.
  Lemma insert_by_sorted i l : StronglySorted before l -> Forall (fun j => i < j) l -> StronglySorted before (insert_by F ltb key i l).
  Proof.
    induction 1 as [|j l Hs IH Hj]; intros Hi; cbn [insert_by]; [repeat constructor|]. inversion Hi as [|? ? H1 H2]; subst.
    destruct (ltb (key j) (key i)) eqn:E.
    - constructor; [apply IH, H2|]. rewrite Forall_forall in *. intros q Hq. apply (Permutation_in _ (insert_by_perm i l)) in Hq.
      destruct Hq as [->|Hq]; [left; exact E|apply Hj, Hq].
    - assert (B : before i j). { destruct (ltb (key i) (key j)) eqn:E2; [left; exact E2|right]. split; [exact (lt_total HO _ _ E2 E)|exact H1]. }
      constructor; [constructor; assumption|]. constructor; [exact B|]. rewrite Forall_forall in *. intros q Hq. exact (before_trans B (Hj q Hq)).
  Qed.
  Lemma sort_seq : forall n s, let l := fold_right (insert_by F ltb key) [] (seq s n) in Permutation l (seq s n) /\ StronglySorted before l.
  Proof.
    induction n as [|n IH]; intros s; cbn [seq fold_right]; [split; constructor|]. destruct (IH (S s)) as [P S']. split.
    - apply perm_trans with (s :: fold_right (insert_by F ltb key) [] (seq (S s) n)); [apply insert_by_perm|constructor; exact P].
    - apply insert_by_sorted; [exact S'|]. rewrite Forall_forall. intros j Hj. apply (Permutation_in _ P) in Hj. apply in_seq in Hj. lia.
  Qed.
  Lemma insert_by_ext key' i l : (forall j, j = i \/ In j l -> key j = key' j) -> insert_by F ltb key i l = insert_by F ltb key' i l.
  Proof.
    induction l as [|j l IH]; intros H; cbn [insert_by]; [reflexivity|]. rewrite (H j), (H i) by (cbn; auto).
    rewrite IH; [reflexivity|]. intros k Hk. apply H. cbn. tauto.
  Qed.
End Sort.
Lemma sort_seq_ext (F : fld) (ltb : F -> F -> bool) key key' : forall n s, (forall j, s <= j < s + n -> key j = key' j) ->
  fold_right (insert_by F ltb key) [] (seq s n) = fold_right (insert_by F ltb key') [] (seq s n).
Proof.
  assert (P : forall k n s j, In j (fold_right (insert_by F ltb k) [] (seq s n)) -> s <= j < s + n).
  { intros k. induction n as [|n IH]; intros s j; cbn [seq fold_right]; [intros []|]. intros H. apply (Permutation_in _ (@insert_by_perm F ltb k s _)) in H.
    destruct H as [->|H]; [lia|]. apply IH in H. lia. }
  induction n as [|n IH]; intros s H; cbn [seq fold_right]; [reflexivity|]. rewrite <- (IH (S s)) by (intros; apply H; lia).
  apply insert_by_ext. intros j [->|Hj]; [apply H; lia|]. apply P in Hj. apply H. lia.
Qed.

Lemma sorted_cut {A} (R : A -> A -> Prop) : forall l k, StronglySorted R l -> StronglySorted R (firstn k l) /\ forall p q, In p (firstn k l) -> In q (skipn k l) -> R p q.
Proof.
  induction l as [|a l IH]; intros k H; [destruct k; cbn; split; try constructor; intros ? ? []|]. destruct k as [|k]; cbn [firstn skipn]; [split; [constructor|intros ? ? []]|].
  inversion H as [|? ? H1 H2]; subst. destruct (IH k H1) as [S C]. rewrite Forall_forall in H2. split.
  - constructor; [exact S|]. rewrite Forall_forall. intros q Hq. apply H2. rewrite <- (firstn_skipn k l). apply in_or_app. left. exact Hq.
  - intros p q [->|Hp] Hq; [|apply C; assumption]. apply H2. rewrite <- (firstn_skipn k l). apply in_or_app. right. exact Hq.
Qed.

Lemma unit_vector_nth (F : fld) m k i : i < m -> nth i (unit_vector F m k) r0 = if i =? k then r1 else r0.
Proof.
  intros Hi. unfold unit_vector. set (f := fun i => if i =? k then r1 else r0). rewrite (nth_indep _ r0 (f 0)) by (rewrite map_length, seq_length; exact Hi).
  rewrite map_nth, seq_nth by exact Hi. reflexivity.
Qed.
Lemma unit_vector_length (F : fld) m k : length (unit_vector F m k) = m.
Proof. unfold unit_vector. rewrite map_length, seq_length. reflexivity. Qed.
Lemma unit_vector_spec (F : fld) m k : k < m -> is_unit_vector m k (unit_vector F m k).
Proof.
  intros Hk. unfold is_unit_vector. split; [apply unit_vector_length|]. split; [exact Hk|]. split; [rewrite unit_vector_nth, Nat.eqb_refl by exact Hk; reflexivity|].
  intros i Hi. destruct (Nat.lt_ge_cases i m) as [H|H]; [rewrite unit_vector_nth by exact H; apply Nat.eqb_neq in Hi; rewrite Hi; reflexivity|].
  apply nth_overflow. rewrite unit_vector_length. exact H.
Qed.
Lemma unit_vector_get (F : fld) m k (v : list F) i : is_unit_vector m k v -> nth i v r0 = if i =? k then r1 else r0.
Proof. intros (_ & _ & H1 & H2). destruct (Nat.eqb_spec i k) as [->|N]; [exact H1|exact (H2 i N)]. Qed.
Section Inner.
  Variable F : fld.
  Add Ring KringEG : (rth F).
  Local Open Scope rng_scope.
  Lemma unit_sum (f : nat -> F) k : forall n s, rsum (map (fun i => (if (i =? k)%nat then 1 else 0) * f i) (seq s n)) = if ((s <=? k) && (k <? s + n))%nat then f k else 0.
  Proof.
    induction n as [|n IH]; intros s; cbn [seq map].
    - destruct (Nat.leb_spec s k), (Nat.ltb_spec k (s + 0)); cbn [andb]; try reflexivity. lia.
    - rewrite rsum_cons, IH. destruct (Nat.eqb_spec s k) as [->|N].
      + replace (S k <=? k)%nat with false by (symmetry; apply Nat.leb_gt; lia). cbn [andb]. rewrite Nat.leb_refl. replace (k <? k + S n)%nat with true by (symmetry; apply Nat.ltb_lt; lia). cbn [andb]. ring.
      + replace ((s <=? k) && (k <? s + S n))%nat with ((S s <=? k) && (k <? S s + n))%nat; [ring|].
        destruct (Nat.leb_spec s k), (Nat.leb_spec (S s) k), (Nat.ltb_spec k (S s + n)), (Nat.ltb_spec k (s + S n)); cbn [andb]; try reflexivity; lia.
  Qed.
  Lemma unit_inner m p q (u v : list F) : (p < m)%nat -> is_unit_vector m p u -> is_unit_vector m q v -> inner m u v = if (p =? q)%nat then 1 else 0.
  Proof.
    intros Hp U V. unfold inner. rewrite (@rsum_map_ext F _ _ (fun i => (if (i =? p)%nat then 1 else 0) * coord v i)).
    - rewrite unit_sum. cbn [Nat.leb andb]. replace (p <? 0 + m)%nat with true by (symmetry; apply Nat.ltb_lt; exact Hp). unfold coord. exact (@unit_vector_get F m q v p V).
    - intros i Hi. apply in_seq in Hi. unfold coord at 1. rewrite (@unit_vector_get F m p u i U). reflexivity.
  Qed.
End Inner.

Section Main.
  Variables (F : fld) (ltb : F -> F -> bool).
  Hypothesis HO : strict_order ltb.
  Lemma argsort_is x koopmans diag : argsort_guesses F ltb x koopmans diag = fold_right (insert_by F ltb (guess_key ltb x diag)) [] (seq 0 (searched koopmans (length diag))).
  Proof.
    unfold argsort_guesses, argsort_by. set (d := match koopmans with None => diag | Some n1 => firstn n1 diag end).
    assert (L : length d = searched koopmans (length diag)) by (subst d; destruct koopmans; cbn [searched]; [apply firstn_length|reflexivity]).
    assert (N : forall i, i < length d -> nth i d r0 = nth i diag r0).
    { subst d. destruct koopmans as [n1|]; [|reflexivity]. intros i Hi. rewrite firstn_length in Hi. rewrite <- (firstn_skipn n1 diag) at 2. rewrite app_nth1; [reflexivity|rewrite firstn_length; lia]. }
    assert (L2 : length (if charged x then map (abs F ltb) d else d) = length d) by (destruct (charged x); [apply map_length|reflexivity]).
    rewrite L2, <- L. apply sort_seq_ext. intros i Hi. unfold guess_key. rewrite <- N by lia. destruct x; cbn [charged]; try reflexivity;
      rewrite (nth_indep _ r0 (abs F ltb r0)) by (rewrite map_length; lia); rewrite map_nth; reflexivity.
  Qed.
  Theorem guesses_ok x koopmans nroots diag : 0 < nroots -> 0 < searched koopmans (length diag) ->
    exists g pos, get_guesses F ltb x koopmans nroots diag = Ok g /\ length g = Nat.min nroots (searched koopmans (length diag)) /\ length pos = length g /\
      (forall i, i < length g -> nth i pos 0 < searched koopmans (length diag) /\ is_unit_vector (length diag) (nth i pos 0) (nth i g [])) /\
      orthonormal_set (length diag) g /\ StronglySorted (preferred ltb (guess_key ltb x diag)) pos /\
      forall p q, In p pos -> q < searched koopmans (length diag) -> ~ In q pos -> preferred ltb (guess_key ltb x diag) p q.
  Proof.
    intros Hr Hm. unfold get_guesses. rewrite argsort_is. set (m := searched koopmans (length diag)) in *. set (key := guess_key ltb x diag).
    destruct (@sort_seq F ltb HO key m 0) as [P S]. set (l := fold_right (insert_by F ltb key) [] (seq 0 m)) in *. set (k := Nat.min nroots (length diag)).
    assert (Hml : m <= length diag) by (unfold m; destruct koopmans; cbn [searched]; lia).
    assert (Ll : length l = m) by (rewrite (Permutation_length P); apply seq_length).
    destruct (sorted_cut k S) as [S1 C]. set (pos := firstn k l) in *.
    assert (Lp : length pos = Nat.min nroots m) by (unfold pos; rewrite firstn_length, Ll; unfold k; lia).
    assert (Hin : forall p, In p pos -> p < m). { intros p Hp. assert (H : In p l) by (rewrite <- (firstn_skipn k l); apply in_or_app; left; exact Hp). apply (Permutation_in _ P) in H. apply in_seq in H. lia. }
    assert (NDp : NoDup pos). { assert (H : NoDup l) by (apply (Permutation_NoDup (Permutation_sym P)), seq_NoDup). rewrite <- (firstn_skipn k l) in H. clear -H. fold pos in H. revert H. generalize (skipn k l). intros r. induction pos as [|a b IH]; [constructor|]. cbn [app]. intros H. inversion H; subst. constructor; [|auto]. intros X. apply H2, in_or_app. left. exact X. }
    set (g := map (unit_vector F (length diag)) pos).
    assert (Lg : length g = length pos) by apply map_length.
    assert (Hg : forall i, i < length g -> nth i pos 0 < m /\ is_unit_vector (length diag) (nth i pos 0) (nth i g [])).
    { intros i Hi. rewrite Lg in Hi. split; [apply Hin, nth_In, Hi|]. unfold g. rewrite (nth_indep _ [] (unit_vector F (length diag) 0)) by (rewrite map_length; exact Hi). rewrite map_nth. apply unit_vector_spec. assert (X := Hin _ (nth_In pos 0 Hi)). lia. }
    exists g, pos. split; [|split; [congruence|split; [congruence|split; [exact Hg|split; [|split; [exact S1|]]]]]].
    - assert (N : length g <> 0) by lia. destruct g; [cbn in N; lia|reflexivity].
    - split.
      + intros v Hv. apply in_map_iff in Hv. destruct Hv as (p & <- & _). apply unit_vector_length.
      + intros i j Hi Hj. destruct (Hg i Hi) as [Hpi Ui]. destruct (Hg j Hj) as [_ Uj]. rewrite (@unit_inner F _ _ _ _ _ (Nat.lt_le_trans _ _ _ Hpi Hml) Ui Uj).
        destruct (Nat.eqb_spec i j) as [->|N]; [rewrite Nat.eqb_refl; reflexivity|]. destruct (Nat.eqb_spec (nth i pos 0) (nth j pos 0)) as [E|_]; [|reflexivity].
        exfalso. apply N. rewrite Lg in Hi, Hj. exact (proj1 (NoDup_nth pos 0) NDp i j Hi Hj E).
    - intros p q Hp Hq Hn. apply C; [exact Hp|]. assert (H : In q l) by (apply (Permutation_in _ (Permutation_sym P)), in_seq; lia).
      rewrite <- (firstn_skipn k l) in H. apply in_app_or in H. destruct H as [H|H]; [contradiction|exact H].
  Qed.
  Theorem guesses_none x koopmans nroots diag : nroots = 0 \/ searched koopmans (length diag) = 0 -> get_guesses F ltb x koopmans nroots diag = Err ValueError.
  Proof.
    intros H. unfold get_guesses. rewrite argsort_is. destruct H as [-> | H]; [reflexivity|]. rewrite H. cbn [seq fold_right]. rewrite firstn_nil. reflexivity.
  Qed.
End Main.
