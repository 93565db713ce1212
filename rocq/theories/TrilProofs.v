(** Proofs about tril_indices_ndim / ntril_ndim. *)
From Verif Require Import Base ListAux PermSpec PermModel.
From Coq Require Import Sorted.
Set Implicit Arguments.

Lemma product_in {A} (ls : list (list A)) t :
  In t (product ls) <-> Forall2 (fun x l => In x l) t ls.
Proof.
  revert t; induction ls as [|l ls IH]; intros t; cbn [product].
  - split; [intros [<-|[]]; constructor|]. intros H; inversion H; left; reflexivity.
  - rewrite in_flat_map. split.
    + intros (x & Hx & Ht). apply in_map_iff in Ht as (t' & <- & Ht'). constructor; [exact Hx|]. apply IH; exact Ht'.
    + intros H; inversion H as [|x ? t' ? Hx Ht]; subst. exists x. split; [exact Hx|].
      apply in_map. apply IH; exact Ht.
Qed.

Lemma product_nodup {A} (ls : list (list A)) : Forall (@NoDup A) ls -> NoDup (product ls).
Proof.
  induction 1 as [|l ls Hl Hls IH]; cbn [product]; [repeat constructor; intros []|].
  apply NoDup_flat_map_intro; [exact Hl| |].
  - intros x _. apply NoDup_map_inj; [exact IH|]. intros a b _ _ H; injection H; auto.
  - intros x y t _ _ Hx Hy. apply in_map_iff in Hx as (a & <- & _). apply in_map_iff in Hy as (b & H & _). congruence.
Qed.

Lemma product_length {A} (ls : list (list A)) : length (product ls) = fold_right (fun l n => length l * n) 1 ls.
Proof.
  induction ls as [|l ls IH]; [reflexivity|]. cbn [product fold_right]. rewrite <- IH.
  apply flat_map_length_const. intros x _. apply map_length.
Qed.

Lemma grid_in n d t : In t (grid n d) <-> length t = d /\ forall x, In x t -> x < n.
Proof.
  unfold grid. rewrite product_in. revert t; induction d as [|d IH]; intros t; cbn [repeat].
  - split; [intros H; inversion H; subst; split; [reflexivity|intros x []]|].
    intros [H _]. destruct t; [constructor|discriminate].
  - split.
    + intros H; inversion H as [|x ? t' ? Hx Ht]; subst. apply IH in Ht as [H1 H2]. apply in_seq in Hx.
      split; [cbn; congruence|]. intros y [<-|Hy]; [lia|auto].
    + intros [H1 H2]. destruct t as [|x t]; [discriminate|]. constructor.
      * apply in_seq. specialize (H2 x (or_introl eq_refl)). lia.
      * apply IH. split; [cbn in H1; congruence|]. intros y Hy; apply H2; right; exact Hy.
Qed.

Lemma StronglySorted_app {A} (R : A -> A -> Prop) l1 l2 : StronglySorted R l1 -> StronglySorted R l2 ->
  (forall x y, In x l1 -> In y l2 -> R x y) -> StronglySorted R (l1 ++ l2).
Proof.
  induction l1 as [|x l1 IH]; intros H1 H2 H; cbn; [exact H2|].
  inversion H1 as [|? ? Hs Hf]; subst. constructor.
  - apply IH; [exact Hs|exact H2|]. intros a b Ha Hb. apply H; [right; exact Ha|exact Hb].
  - apply Forall_app. split; [exact Hf|]. apply Forall_forall. intros y Hy. apply H; [left; reflexivity|exact Hy].
Qed.

Lemma StronglySorted_filter {A} (R : A -> A -> Prop) f l : StronglySorted R l -> StronglySorted R (filter f l).
Proof.
  induction 1 as [|x l Hs IH Hf]; cbn; [constructor|]. destruct (f x); [|exact IH]. constructor; [exact IH|].
  apply Forall_forall. intros y Hy. apply filter_In in Hy as [Hy _]. rewrite Forall_forall in Hf. auto.
Qed.

Lemma product_lex ls : Forall (StronglySorted lt) ls -> StronglySorted lex_lt (product ls).
Proof.
  induction 1 as [|l ls Hl Hls IH]; cbn [product]; [repeat constructor|].
  induction Hl as [|x l Hs IHl Hf]; cbn [flat_map]; [constructor|].
  apply StronglySorted_app; [|exact IHl|].
  - clear -IH. induction IH as [|t ts Hs IH Hf]; cbn; constructor; [exact IH|].
    apply Forall_forall. intros y Hy. apply in_map_iff in Hy as (u & <- & Hu). apply lex_tail.
    rewrite Forall_forall in Hf. auto.
  - intros a b Ha Hb. apply in_map_iff in Ha as (ta & <- & _). apply in_flat_map in Hb as (y & Hy & Hb).
    apply in_map_iff in Hb as (tb & <- & _). apply lex_head. rewrite Forall_forall in Hf. auto.
Qed.

Lemma seq_sorted s n : StronglySorted lt (seq s n).
Proof.
  revert s; induction n as [|n IH]; intros s; cbn; constructor; [apply IH|].
  apply Forall_forall. intros x Hx. apply in_seq in Hx. lia.
Qed.

Lemma Forall_repeat {A} (P : A -> Prop) x n : P x -> Forall P (repeat x n).
Proof. intros H; induction n; cbn; constructor; auto. Qed.

Lemma tril_mask_decreasing diag t : tril_mask diag t = true <-> decreasing diag t.
Proof.
  unfold decreasing. induction t as [|x t IH].
  - split; [intros _ i j _ H; cbn in H; lia|reflexivity].
  - destruct t as [|y t].
    + split; [intros _ i j H1 H2; cbn in H2; lia|reflexivity].
    + change (tril_mask diag (x :: y :: t)) with ((if diag then Nat.leb y x else Nat.ltb y x) && tril_mask diag (y :: t)).
      rewrite andb_true_iff, IH. split.
      * intros [Hxy Hd] i j Hij Hj. destruct j as [|j]; [lia|]. cbn [length] in Hj, Hd.
        destruct i as [|i].
        -- assert (Hj0 : j = 0 \/ 0 < j) by lia. destruct Hj0 as [->|Hj0].
           ++ cbn [nth]. destruct diag; [apply Nat.leb_le; exact Hxy|apply Nat.ltb_lt; exact Hxy].
           ++ specialize (Hd 0 j Hj0 ltac:(lia)). cbn [nth] in *.
              destruct diag; [apply Nat.leb_le in Hxy|apply Nat.ltb_lt in Hxy]; lia.
        -- apply (Hd i j); lia.
      * intros H. split.
        -- specialize (H 0 1 ltac:(lia) ltac:(cbn; lia)). cbn [nth] in H.
           destruct diag; [apply Nat.leb_le|apply Nat.ltb_lt]; exact H.
        -- intros i j Hij Hj. specialize (H (S i) (S j) ltac:(lia) ltac:(cbn in *; lia)). exact H.
Qed.

Lemma tril_tuples_in n d diag t : In t (tril_tuples n d diag) <->
  length t = d /\ (forall x, In x t -> x < n) /\ decreasing diag t.
Proof. unfold tril_tuples. rewrite filter_In, grid_in, tril_mask_decreasing. tauto. Qed.

Lemma tril_tuples_sorted n d diag : StronglySorted lex_lt (tril_tuples n d diag).
Proof. apply StronglySorted_filter, product_lex, Forall_repeat, seq_sorted. Qed.

Lemma lex_irrefl t : ~ lex_lt t t.
Proof. induction t as [|x t IH]; intros H; inversion H; subst; [lia|contradiction]. Qed.

Lemma lex_trans a b c : lex_lt a b -> lex_lt b c -> lex_lt a c.
Proof.
  intros H; revert c; induction H as [x y s t Hxy|x s t Hst IH]; intros c Hc; inversion Hc; subst.
  - apply lex_head; lia.
  - apply lex_head; lia.
  - apply lex_head; lia.
  - apply lex_tail; auto.
Qed.

Lemma sorted_nodup l : StronglySorted lex_lt l -> NoDup l.
Proof.
  induction 1 as [|x l Hs IH Hf]; constructor; [|exact IH]. intros H. rewrite Forall_forall in Hf.
  apply (lex_irrefl (Hf x H)).
Qed.

Lemma tril_tuples_nodup n d diag : NoDup (tril_tuples n d diag).
Proof. apply sorted_nodup, tril_tuples_sorted. Qed.

(** Counting. *)
Fixpoint dtup (diag : bool) (d n : nat) : list (list nat) :=
  match d with
  | 0 => [[]]
  | S d' => flat_map (fun x => map (cons x) (dtup diag d' (if diag then S x else x))) (seq 0 n)
  end.

Lemma decreasing_cons diag x t : decreasing diag (x :: t) <->
  (forall y, In y t -> if diag then y <= x else y < x) /\ decreasing diag t.
Proof.
  unfold decreasing. split.
  - intros H. split.
    + intros y Hy. apply In_nth with (d := 0) in Hy as (j & Hj & <-).
      apply (H 0 (S j)); cbn; lia.
    + intros i j Hij Hj. apply (H (S i) (S j)); cbn; lia.
  - intros [H1 H2] i j Hij Hj. destruct j as [|j]; [lia|]. cbn [length] in Hj. destruct i as [|i]; cbn [nth].
    + apply H1. apply nth_In. lia.
    + apply H2; lia.
Qed.

Lemma dtup_in diag d n t : In t (dtup diag d n) <-> length t = d /\ (forall x, In x t -> x < n) /\ decreasing diag t.
Proof.
  revert n t; induction d as [|d IH]; intros n t; cbn [dtup].
  - split.
    + intros [<-|[]]. repeat split; [intros x []|intros i j _ H; cbn in H; lia].
    + intros [H _]. destruct t; [left; reflexivity|discriminate].
  - rewrite in_flat_map. split.
    + intros (x & Hx & Ht). apply in_map_iff in Ht as (t' & <- & Ht). apply IH in Ht as (H1 & H2 & H3).
      apply in_seq in Hx. repeat split.
      * cbn; congruence.
      * intros y [<-|Hy]; [lia|]. specialize (H2 y Hy). destruct diag; lia.
      * apply decreasing_cons. split; [|exact H3]. intros y Hy. specialize (H2 y Hy). destruct diag; lia.
    + intros (H1 & H2 & H3). destruct t as [|x t]; [discriminate|]. apply decreasing_cons in H3 as [H3 H4].
      exists x. split; [apply in_seq; specialize (H2 x (or_introl eq_refl)); lia|].
      apply in_map. apply IH. repeat split; [cbn in H1; congruence| |exact H4].
      intros y Hy. specialize (H3 y Hy). destruct diag; lia.
Qed.

Lemma dtup_nodup diag d n : NoDup (dtup diag d n).
Proof.
  revert n; induction d as [|d IH]; intros n; cbn [dtup]; [repeat constructor; intros []|].
  apply NoDup_flat_map_intro; [apply seq_NoDup| |].
  - intros x _. apply NoDup_map_inj; [apply IH|]. intros a b _ _ H; injection H; auto.
  - intros x y t _ _ Hx Hy. apply in_map_iff in Hx as (a & <- & _). apply in_map_iff in Hy as (b & H & _). congruence.
Qed.

Lemma dtup_S diag d n : length (dtup diag (S d) (S n)) =
  length (dtup diag (S d) n) + length (dtup diag d (if diag then S n else n)).
Proof.
  cbn [dtup]. rewrite seq_S, flat_map_app, app_length. cbn [flat_map]. rewrite app_nil_r, map_length. reflexivity.
Qed.

Lemma falling_S n k : falling (S n) (S k) = S n * falling n k.
Proof. reflexivity. Qed.

Lemma falling_pascal n k : falling (S n) (S k) = falling n (S k) + S k * falling n k.
Proof.
  revert k; induction n as [|n IH]; intros k.
  - destruct k; cbn; lia.
  - destruct k as [|k]; [destruct n; cbn; lia|].
    rewrite (falling_S (S n) (S k)). rewrite (falling_S n (S k)).
    pose proof (falling_S n k) as E. pose proof (IH k) as E2.
    set (a := falling (S n) (S k)) in *. set (b := falling n (S k)) in *. set (c := falling n k) in *.
    assert (E3 : S n * a = S n * b + S k * a) by (rewrite E2 at 1; rewrite E; ring).
    nia.
Qed.

Lemma rising_pascal n k : rising (S n) (S k) = rising n (S k) + S k * rising (S n) k.
Proof.
  revert n; induction k as [|k IH]; intros n; [cbn; lia|].
  change (rising (S n) (S (S k))) with (S n * rising (S (S n)) (S k)).
  change (rising n (S (S k))) with (n * rising (S n) (S k)).
  rewrite (IH (S n)). 
  change (rising (S n) (S k)) with (S n * rising (S (S n)) k). nia.
Qed.

Lemma dtup_count_strict d n : length (dtup false d n) * fact d = falling n d.
Proof.
  revert n; induction d as [|d IH]; intros n; [reflexivity|].
  induction n as [|n IHn]; [reflexivity|].
  rewrite dtup_S, falling_pascal, Nat.mul_add_distr_r, IHn, <- (IH n).
  change (fact (S d)) with (S d * fact d). nia.
Qed.

Lemma dtup_count_weak d n : length (dtup true d n) * fact d = rising n d.
Proof.
  revert n; induction d as [|d IH]; intros n; [reflexivity|].
  induction n as [|n IHn]; [reflexivity|].
  rewrite dtup_S, rising_pascal, Nat.mul_add_distr_r, IHn, <- (IH (S n)).
  change (fact (S d)) with (S d * fact d). nia.
Qed.

Lemma tril_dtup n d diag : Permutation (tril_tuples n d diag) (dtup diag d n).
Proof.
  apply NoDup_Permutation; [apply tril_tuples_nodup|apply dtup_nodup|].
  intros t. rewrite tril_tuples_in, dtup_in. tauto.
Qed.

Lemma combinations_count l k : length (combinations l k) * fact k = falling (length l) k.
Proof.
  revert k; induction l as [|x l IH]; intros k; destruct k as [|k]; try reflexivity.
  cbn [combinations]. rewrite app_length, map_length, Nat.mul_add_distr_r, IH.
  cbn [length]. rewrite falling_pascal, <- (IH k). change (fact (S k)) with (S k * fact k). nia.
Qed.

Lemma combinations_wr_cons x l k :
  combinations_wr (x :: l) (S k) = map (cons x) (combinations_wr (x :: l) k) ++ combinations_wr l (S k).
Proof. reflexivity. Qed.

Lemma combinations_wr_count l k : length (combinations_wr l k) * fact k = rising (length l) k.
Proof.
  revert k; induction l as [|x l IH]; intros k.
  - destruct k; reflexivity.
  - induction k as [|k IHk]; [reflexivity|].
    rewrite combinations_wr_cons, app_length, map_length, Nat.mul_add_distr_r, IH.
    cbn [length] in *. rewrite rising_pascal, <- IHk. change (fact (S k)) with (S k * fact k). nia.
Qed.

Lemma ntril_count n d diag : ntril_ndim n d diag = length (tril_tuples n d diag).
Proof.
  rewrite (Permutation_length (tril_dtup n d diag)). unfold ntril_ndim.
  apply Nat.mul_cancel_r with (p := fact d); [apply fact_neq_0|].
  destruct diag.
  - rewrite combinations_wr_count, dtup_count_weak, seq_length. reflexivity.
  - rewrite combinations_count, dtup_count_strict, seq_length. reflexivity.
Qed.

Lemma ntril_closed n d diag : ntril_ndim n d diag * fact d = if diag then rising n d else falling n d.
Proof.
  unfold ntril_ndim. destruct diag; [rewrite combinations_wr_count|rewrite combinations_count]; rewrite seq_length; reflexivity.
Qed.

(** The arrays returned by [tril_indices_ndim] read column by column. *)
Lemma tril_indices_cols n d diag arrs : tril_indices_ndim n d diag = Ok arrs ->
  length arrs = d /\ (forall a, In a arrs -> length a = length (tril_tuples n d diag)) /\
  map (fun k => map (fun a => nth k a 0) arrs) (seq 0 (length (tril_tuples n d diag))) = tril_tuples n d diag.
Proof.
  unfold tril_indices_ndim. destruct d as [|[|d]]; intros H; [discriminate| |].
  - injection H as <-.
    assert (E : tril_tuples n 1 diag = map (fun x => [x]) (seq 0 n)).
    { unfold tril_tuples, grid. cbn [repeat product].
      assert (G : forall l, filter (tril_mask diag) (flat_map (fun x => map (cons x) [[]]) l) = map (fun x => [x]) l).
      { induction l as [|x l IH]; [reflexivity|]. cbn [flat_map app]. cbn [filter tril_mask map app]. f_equal. exact IH. }
      apply G. }
    rewrite E, map_length, seq_length. repeat split.
    + intros a [<-|[]]. apply seq_length.
    + cbn [map]. apply map_ext_in. intros k Hk. apply in_seq in Hk. rewrite seq_nth by lia. reflexivity.
  - match type of H with Ok ?x = Ok ?y => assert (E : x = y) by congruence end. clear H. rename E into H.
    assert (HL0 : length arrs = S (S d)) by (rewrite <- H, map_length, seq_length; reflexivity).
    split; [exact HL0|]. rewrite <- H. clear H HL0 arrs. split.
    + intros a Ha. apply in_map_iff in Ha as (i & <- & _). apply map_length.
    + set (T := tril_tuples n (S (S d)) diag). 
      rewrite <- (map_nth_seq [] T) at 2. apply map_ext_in. intros k Hk. apply in_seq in Hk.
      rewrite map_map.
      assert (HL : length (nth k T []) = S (S d)).
      { assert (Hin : In (nth k T []) T) by (apply nth_In; lia). apply tril_tuples_in in Hin. tauto. }
      rewrite <- (map_nth_seq 0 (nth k T [])), HL at 1. apply map_ext. intros i.
      rewrite (nth_indep (map (fun t => nth i t 0) T) 0 (nth i [] 0)) by (rewrite map_length; lia).
      exact (map_nth (fun t => nth i t 0) T [] k).
Qed.
