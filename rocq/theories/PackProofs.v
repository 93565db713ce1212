(** Normal forms of compress_axes and decompress_axes. *)
From Verif Require Import Base ListAux Alg PermSpec PermModel PermSign PermProofs TrilProofs SpinProofs StringPermProofs
  ArrModel ArrProofs TensorModel TensorSpec GroupProofs.
From Coq Require Import Sorted.
Set Implicit Arguments.

(** Entries of [t] at the positions [p]. *)
Definition pick (p t : list nat) : list nat := map (fun j => nth j t 0) p.

Lemma pick_length p t : length (pick p t) = length p.
Proof. apply map_length. Qed.

Lemma pick_seq t : pick (seq 0 (length t)) t = t.
Proof. apply map_nth_seq. Qed.

Lemma pick_perm p t : Permutation (seq 0 (length t)) p -> Permutation t (pick p t).
Proof. intros H. unfold pick. rewrite <- H, map_nth_seq. reflexivity. Qed.

Lemma pick_app p q t : pick (p ++ q) t = pick p t ++ pick q t.
Proof. apply map_app. Qed.

Lemma pick_concat gs t : pick (concat gs) t = concat (map (fun g => pick g t) gs).
Proof. unfold pick. rewrite concat_map. reflexivity. Qed.

Lemma pick_inj p q t : NoDup t -> (forall i, In i p -> i < length t) -> (forall i, In i q -> i < length t) ->
  pick p t = pick q t -> p = q.
Proof.
  intros Hnd. revert q; induction p as [|i p IH]; intros [|j q] Hp Hq H; try discriminate; [reflexivity|].
  cbn in H. injection H as H1 H2. f_equal.
  - apply (proj1 (NoDup_nth t 0) Hnd); [apply Hp; left; reflexivity|apply Hq; left; reflexivity|exact H1].
  - apply IH; [intros k Hk; apply Hp; right; exact Hk|intros k Hk; apply Hq; right; exact Hk|exact H2].
Qed.

Lemma perm_pick t u : Permutation t u -> exists p k, Permutation (seq 0 (length t)) p /\ swaps k (seq 0 (length t)) p /\ u = pick p t.
Proof.
  intros H. destruct (perm_swaps H) as [k Hk]. rewrite <- (pick_seq t) in Hk at 1. unfold pick in Hk.
  destruct (swaps_unmap _ _ Hk) as (p & -> & Hp). exists p, k. split; [apply (swaps_perm Hp)|]. split; [exact Hp|reflexivity].
Qed.

(** The arrays of [tril_indices_ndim]. *)
Definition trilarr n c diag : list (list nat) := map (fun d => map (fun t => nth d t 0) (tril_tuples n c diag)) (seq 0 c).

Lemma tril_tuples_one n diag : tril_tuples n 1 diag = map (fun x => [x]) (seq 0 n).
Proof.
  unfold tril_tuples, grid. cbn [repeat product].
  assert (G : forall l, filter (tril_mask diag) (flat_map (fun x => map (cons x) [[]]) l) = map (fun x => [x]) l).
  { induction l as [|x l IH]; [reflexivity|]. cbn [flat_map app]. cbn [filter tril_mask map app]. f_equal. exact IH. }
  apply G.
Qed.

Lemma tril_indices_ok n c diag : 1 <= c -> tril_indices_ndim n c diag = Ok (trilarr n c diag).
Proof.
  intros Hc. destruct c as [|[|c]]; [lia| |reflexivity]. unfold trilarr. cbn [tril_indices_ndim seq map].
  rewrite tril_tuples_one, map_map. cbn [nth]. rewrite map_id. reflexivity.
Qed.

Lemma columns_pick n c diag p : p <> [] ->
  columns (map (fun d => map (fun t => nth d t 0) (tril_tuples n c diag)) p) = map (pick p) (tril_tuples n c diag).
Proof.
  intros Hp. unfold columns. destruct p as [|p0 p]; [contradiction|]. cbn [map hd]. rewrite map_length.
  set (T := tril_tuples n c diag). transitivity (map (pick (p0 :: p)) (map (fun k => nth k T []) (seq 0 (length T)))); [|rewrite map_nth_seq; reflexivity].
  rewrite map_map. apply map_ext_in. intros k Hk. apply in_seq in Hk. cbn [pick map]. f_equal.
  - rewrite (nth_map_lt (fun t => nth p0 t 0) T 0 []) by lia. reflexivity.
  - rewrite map_map. apply map_ext. intros j. rewrite (nth_map_lt (fun t => nth j t 0) T 0 []) by lia. reflexivity.
Qed.

(** Mesh products read by multi-index. *)
Definition at_idx (ls : list (list nat)) (ks : list nat) : list nat := map (fun ik => nth (snd ik) (fst ik) 0) (combine ls ks).

Lemma product_at_idx ls : product ls = map (at_idx ls) (all_idx (map (@length nat) ls)).
Proof.
  induction ls as [|l ls IH]; [reflexivity|]. cbn [map]. unfold all_idx in *. cbn [map product]. rewrite IH.
  set (P := product _). rewrite <- (map_nth_seq 0 l) at 1. generalize (seq 0 (length l)). intros ks0.
  induction ks0 as [|k ks0 IHk]; [reflexivity|]. cbn [map flat_map]. rewrite IHk, map_app. f_equal.
  rewrite !map_map. apply map_ext. intros ks. reflexivity.
Qed.

(** Descending sort. *)
Lemma sort_desc u : exists t, Permutation t u /\ decreasing true t /\ (NoDup u -> decreasing false t).
Proof.
  exists (rev (sorted_py u)).
  assert (HP : Permutation (rev (sorted_py u)) u).
  { rewrite <- Permutation_rev. symmetry. apply sorted_py_perm. }
  assert (H : decreasing true (rev (sorted_py u))).
  { pose proof (sorted_py_sorted u) as H. revert H. generalize (sorted_py u). clear HP u.
    assert (G : forall l, StronglySorted le l -> forall i j, i < j -> j < length l -> nth i l 0 <= nth j l 0).
    { induction 1 as [|x l Hs IH Hf]; intros i j Hij Hj; cbn in Hj; [lia|].
      destruct j as [|j]; [lia|]. destruct i as [|i]; cbn.
      - rewrite Forall_forall in Hf. apply Hf, nth_In. lia.
      - apply IH; lia. }
    intros l Hl i j Hij Hj. rewrite rev_length in Hj. rewrite !rev_nth by lia. apply G; [exact Hl|lia|lia]. }
  split; [exact HP|]. split; [exact H|]. intros Hnd. apply (Permutation_NoDup (Permutation_sym HP)) in Hnd.
  intros i j Hij Hj. specialize (H i j Hij Hj). cbn in H.
  assert (nth i (rev (sorted_py u)) 0 <> nth j (rev (sorted_py u)) 0); [|lia].
  intros E. apply (proj1 (NoDup_nth _ 0) Hnd) in E; lia.
Qed.

Lemma decreasing_weaken diag t : decreasing diag t -> decreasing true t.
Proof. destruct diag; [auto|]. intros H i j Hij Hj. specialize (H i j Hij Hj). cbn in *. lia. Qed.

Lemma decreasing_sorted t : decreasing true t -> StronglySorted ge t.
Proof.
  induction t as [|x t IH]; intros H; [constructor|]. apply decreasing_cons in H as [H1 H2].
  constructor; [apply IH; exact H2|]. apply Forall_forall. intros y Hy. specialize (H1 y Hy). cbn in H1. lia.
Qed.

Lemma sorted_ge_unique l1 l2 : StronglySorted ge l1 -> StronglySorted ge l2 -> Permutation l1 l2 -> l1 = l2.
Proof.
  intros H1; revert l2; induction H1 as [|x l1 Hs IH Hf]; intros l2 H2 HP.
  - apply Permutation_nil in HP. congruence.
  - destruct l2 as [|y l2]; [apply Permutation_sym, Permutation_nil in HP; discriminate|].
    inversion H2 as [|? ? Hs2 Hf2]; subst. rewrite Forall_forall in Hf, Hf2.
    assert (x = y).
    { assert (Hx : In x (y :: l2)) by (apply (Permutation_in x HP); left; reflexivity).
      assert (Hy : In y (x :: l1)) by (apply (Permutation_in y (Permutation_sym HP)); left; reflexivity).
      destruct Hx as [<-|Hx]; [reflexivity|]. destruct Hy as [<-|Hy]; [reflexivity|].
      specialize (Hf y Hy). specialize (Hf2 x Hx). lia. }
    subst y. f_equal. apply IH; [exact Hs2|]. apply Permutation_cons_inv with (a := x). exact HP.
Qed.

Lemma decreasing_nodup t : decreasing false t -> NoDup t.
Proof.
  intros H. apply (NoDup_nth t 0). intros i j Hi Hj E.
  destruct (Nat.lt_total i j) as [Hl|[Hl|Hl]]; [|exact Hl|].
  - specialize (H i j Hl Hj). cbn in H. lia.
  - specialize (H j i Hl Hi). cbn in H. lia.
Qed.

(** One group: [gw (n, c) sym (k, u, sg)]: compressed position [k] is written to index tuple [u]
    with sign [sg]. *)
Definition gw (diag : bool) (nc : nat * nat) (sym : nat) (q : nat * list nat * Z) : Prop :=
  let T := tril_tuples (fst nc) (snd nc) diag in
  let '(k, u, sg) := q in
  k < length T /\ exists p s0, In (p, s0) (permutations_with_signs (seq 0 (snd nc))) /\
    u = pick p (nth k T []) /\ sg = if sym =? ch_minus then s0 else 1%Z.

Lemma pws_seq_in c p s0 : In (p, s0) (permutations_with_signs (seq 0 c)) ->
  Permutation (seq 0 c) p /\ s0 = (if par p then -1 else 1)%Z.
Proof.
  intros H. split; [|exact (pws_sign_seq _ _ _ H)]. apply pws_in_fst.
  change p with (fst (p, s0)). apply in_map. exact H.
Qed.

Lemma pws_seq_intro c p : Permutation (seq 0 c) p -> In (p, (if par p then -1 else 1)%Z) (permutations_with_signs (seq 0 c)).
Proof.
  intros H. apply pws_in_fst in H. apply in_map_iff in H as ([p' s0] & E & H). cbn in E. subst p'.
  rewrite <- (pws_sign_seq _ _ _ H). exact H.
Qed.

Lemma tril_nth n c diag k : k < length (tril_tuples n c diag) ->
  let t := nth k (tril_tuples n c diag) [] in length t = c /\ (forall x, In x t -> x < n) /\ decreasing diag t.
Proof. intros Hk. cbv zeta. apply tril_tuples_in. apply nth_In. exact Hk. Qed.

Lemma inb_repeat n c u : inb (repeat n c) u <-> length u = c /\ forall x, In x u -> x < n.
Proof.
  unfold inb. split.
  - intros H. split; [apply inb_length in H; rewrite repeat_length in H; exact H|].
    remember (repeat n c) as r eqn:E. revert c E. induction H as [|i m u r Hi H IH]; intros c E x Hx; [destruct Hx|].
    destruct c as [|c]; [discriminate|]. cbn in E. injection E as -> ->. destruct Hx as [<-|Hx]; [exact Hi|].
    apply (IH c eq_refl _ Hx).
  - intros [<- H]. induction u as [|x u IH]; cbn; constructor; [apply H; left; reflexivity|]. apply IH.
    intros y Hy; apply H; right; exact Hy.
Qed.

Lemma gw_inb diag nc sym k u sg : gw diag nc sym (k, u, sg) -> inb (repeat (fst nc) (snd nc)) u.
Proof.
  intros (Hk & p & s0 & Hp & -> & _). apply pws_seq_in in Hp as [Hp _]. apply tril_nth in Hk as (HL & Hlt & _).
  apply inb_repeat. rewrite pick_length, <- (Permutation_length Hp), seq_length. split; [reflexivity|].
  intros x Hx. apply Hlt. apply (Permutation_in x (Permutation_sym (@pick_perm p _ ltac:(rewrite HL; exact Hp))) Hx).
Qed.

Lemma gw_fun diag nc sym k u sg k' sg' : diag = false \/ sym <> ch_minus ->
  gw diag nc sym (k, u, sg) -> gw diag nc sym (k', u, sg') -> k = k' /\ sg = sg'.
Proof.
  intros Hd (Hk & p & s0 & Hp & Eu & ->) (Hk' & p' & s0' & Hp' & Eu' & ->).
  apply pws_seq_in in Hp as [Hp Hs], Hp' as [Hp' Hs'].
  destruct (tril_nth _ _ _ Hk) as (HL & _ & Hdec). destruct (tril_nth _ _ _ Hk') as (HL' & _ & Hdec').
  assert (E : nth k (tril_tuples (fst nc) (snd nc) diag) [] = nth k' (tril_tuples (fst nc) (snd nc) diag) []).
  { apply sorted_ge_unique; [apply decreasing_sorted, (decreasing_weaken Hdec)|apply decreasing_sorted, (decreasing_weaken Hdec')|].
    rewrite (@pick_perm p _ ltac:(rewrite HL; exact Hp)), <- Eu, Eu'.
    symmetry. apply pick_perm. rewrite HL'; exact Hp'. }
  split.
  - apply (proj1 (NoDup_nth _ []) (tril_tuples_nodup (fst nc) (snd nc) diag)); assumption.
  - destruct (Nat.eqb_spec sym ch_minus) as [Es|]; [|reflexivity].
    destruct Hd as [->|Hd]; [|contradiction].
    assert (Epp : p = p'); [|rewrite Hs, Hs', Epp; reflexivity].
    rewrite E in Eu. rewrite Eu in Eu'. apply (@pick_inj p p' (nth k' (tril_tuples (fst nc) (snd nc) false) [])).
    + apply decreasing_nodup. exact Hdec'.
    + intros i Hi. rewrite HL'. apply (proj1 (perm_seq_lt _ i Hp) Hi).
    + intros i Hi. rewrite HL'. apply (proj1 (perm_seq_lt _ i Hp') Hi).
    + exact Eu'.
Qed.

Lemma gw_ex diag nc sym u : inb (repeat (fst nc) (snd nc)) u -> (diag = false -> NoDup u) ->
  exists k sg, gw diag nc sym (k, u, sg).
Proof.
  intros Hu Hnd. apply inb_repeat in Hu as [HL Hlt]. destruct (sort_desc u) as (t & HP & H1 & H2).
  assert (Hin : In t (tril_tuples (fst nc) (snd nc) diag)).
  { apply tril_tuples_in. split; [rewrite (Permutation_length HP); exact HL|]. split.
    - intros x Hx. apply Hlt. apply (Permutation_in x HP Hx).
    - destruct diag; [exact H1|]. apply H2, Hnd. reflexivity. }
  apply (In_nth _ _ []) in Hin as (k & Hk & Ek). destruct (perm_pick HP) as (p & m & Hp & _ & Eu).
  assert (HLt : length t = snd nc) by (rewrite (Permutation_length HP); exact HL). rewrite HLt in Hp.
  exists k, (if sym =? ch_minus then (if par p then -1 else 1)%Z else 1%Z). split; [exact Hk|].
  exists p, (if par p then -1 else 1)%Z. split; [apply pws_seq_intro; exact Hp|]. rewrite Ek. auto.
Qed.

Lemma gw_id diag nc sym k : k < length (tril_tuples (fst nc) (snd nc) diag) ->
  gw diag nc sym (k, nth k (tril_tuples (fst nc) (snd nc) diag) [], 1%Z).
Proof.
  intros Hk. split; [exact Hk|]. exists (seq 0 (snd nc)), 1%Z. destruct (tril_nth _ _ _ Hk) as (HL & _). split; [|split].
  - pose proof (@pws_seq_intro (snd nc) _ (Permutation_refl _)) as H. rewrite par_seq in H. exact H.
  - replace (seq 0 (snd nc)) with (seq 0 (length (nth k (tril_tuples (fst nc) (snd nc) diag) []))) by (rewrite HL; reflexivity). symmetry. apply pick_seq.
  - destruct (sym =? ch_minus); reflexivity.
Qed.

(** Exchange of the entries at positions [i] and [j] of a tuple. *)
Definition swap_at (i j : nat) (l : list nat) : list nat := lupd i (nth j l 0) (lupd j (nth i l 0) l).

Lemma swap_at_length i j l : length (swap_at i j l) = length l.
Proof. unfold swap_at. rewrite !lupd_length. reflexivity. Qed.

Lemma swap_at_nth i j l k : i < length l -> j < length l ->
  nth k (swap_at i j l) 0 = if k =? i then nth j l 0 else if k =? j then nth i l 0 else nth k l 0.
Proof.
  intros Hi Hj. unfold swap_at. rewrite !lupd_nth, lupd_length.
  destruct (Nat.ltb_spec i (length l)), (Nat.ltb_spec j (length l)); try lia. rewrite !andb_true_r. reflexivity.
Qed.

Lemma swap_at_map (f : nat -> nat) i j l : i < length l -> j < length l -> f 0 = 0 \/ True ->
  map f (swap_at i j l) = swap_at i j (map f l).
Proof.
  intros Hi Hj _. apply nth_ext with (d := f 0) (d' := 0); [rewrite map_length, !swap_at_length, map_length; reflexivity|].
  intros k Hk. rewrite map_length, swap_at_length in Hk. rewrite map_nth, !swap_at_nth by (rewrite ?map_length; assumption).
  destruct (k =? i); [|destruct (k =? j)].
  - symmetry. apply (nth_map_lt f l 0 0 Hj).
  - symmetry. apply (nth_map_lt f l 0 0 Hi).
  - symmetry. apply (nth_map_lt f l 0 0 Hk).
Qed.

Lemma split_two (l : list nat) i j : i < j -> j < length l -> exists l1 m l2,
  l = l1 ++ nth i l 0 :: m ++ nth j l 0 :: l2 /\ length l1 = i /\ length l1 + 1 + length m = j.
Proof.
  intros Hij Hj. exists (firstn i l), (firstn (j - i - 1) (skipn (S i) l)), (skipn (S j) l).
  assert (E1 : length (firstn i l) = i) by (rewrite firstn_length; lia).
  assert (E2 : length (firstn (j - i - 1) (skipn (S i) l)) = j - i - 1) by (rewrite firstn_length, skipn_length; lia).
  split; [|lia].
  assert (G : forall (l : list nat) k, k < length l -> skipn k l = nth k l 0 :: skipn (S k) l).
  { clear. induction l as [|x l IH]; intros k Hk; cbn in Hk; [lia|]. destruct k; [reflexivity|]. cbn [skipn nth]. apply IH. lia. }
  assert (G2 : forall a b (l : list nat), skipn a (skipn b l) = skipn (b + a) l).
  { clear. intros a b; induction b as [|b IH]; intros l; [reflexivity|]. destruct l; [destruct a; reflexivity|]. cbn. apply IH. }
  rewrite <- (firstn_skipn i l) at 1. f_equal. rewrite (G l i) by lia. f_equal.
  rewrite <- (firstn_skipn (j - i - 1) (skipn (S i) l)) at 1. f_equal.
  rewrite G2. replace (S i + (j - i - 1)) with j by lia. apply G. lia.
Qed.

Lemma swap_at_split i j l : i < j -> j < length l -> forall l1 x m y l2, l = l1 ++ x :: m ++ y :: l2 ->
  length l1 = i -> length l1 + 1 + length m = j -> swap_at i j l = l1 ++ y :: m ++ x :: l2.
Proof.
  intros Hij Hj l1 x m y l2 E H1 H2.
  assert (Ei : nth i l 0 = x) by (rewrite E, app_nth2 by lia; rewrite H1, Nat.sub_diag; reflexivity).
  assert (Ej : nth j l 0 = y).
  { rewrite E, app_nth2 by lia. replace (j - length l1) with (S (length m)) by lia. cbn [nth].
    rewrite app_nth2, Nat.sub_diag by lia. reflexivity. }
  apply nth_ext with (d := 0) (d' := 0).
  - rewrite swap_at_length, E, !app_length. cbn [length]. rewrite !app_length. cbn [length]. lia.
  - intros k Hk. rewrite swap_at_nth, Ei, Ej by lia. rewrite E.
    destruct (Nat.eqb_spec k i) as [->|Hki]; [rewrite app_nth2 by lia; rewrite H1, Nat.sub_diag; reflexivity|].
    destruct (Nat.eqb_spec k j) as [->|Hkj].
    + rewrite app_nth2 by lia. replace (j - length l1) with (S (length m)) by lia. cbn [nth].
      rewrite app_nth2, Nat.sub_diag by lia. reflexivity.
    + destruct (Nat.lt_ge_cases k (length l1)); [rewrite !app_nth1 by lia; reflexivity|].
      rewrite !app_nth2 by lia. destruct (k - length l1) as [|k'] eqn:Ek; [lia|]. cbn [nth].
      destruct (Nat.lt_ge_cases k' (length m)); [rewrite !app_nth1 by lia; reflexivity|].
      rewrite !app_nth2 by lia. destruct (k' - length m) as [|k''] eqn:Ek'; [lia|]. reflexivity.
Qed.

Lemma swap_at_swaps i j l : i < j -> j < length l -> exists l1 x m y l2, l = l1 ++ x :: m ++ y :: l2 /\
  swap_at i j l = l1 ++ y :: m ++ x :: l2.
Proof.
  intros Hij Hj. destruct (@split_two l i j Hij Hj) as (l1 & m & l2 & E & H1 & H2).
  exists l1, (nth i l 0), m, (nth j l 0), l2. split; [exact E|]. apply (@swap_at_split i j l Hij Hj _ _ _ _ _ E H1 H2).
Qed.

Lemma swap_at_comm i j l : i < length l -> j < length l -> swap_at i j l = swap_at j i l.
Proof.
  intros Hi Hj. apply nth_ext with (d := 0) (d' := 0); [rewrite !swap_at_length; reflexivity|].
  intros k _. rewrite !swap_at_nth by assumption.
  destruct (Nat.eqb_spec k i), (Nat.eqb_spec k j); subst; reflexivity.
Qed.

Lemma swap_at_perm i j l : i < length l -> j < length l -> Permutation l (swap_at i j l).
Proof.
  intros Hi Hj. destruct (Nat.lt_total i j) as [H|[H|H]].
  - destruct (@swap_at_swaps i j l H Hj) as (l1 & x & m & y & l2 & E & ->). rewrite E.
    eapply swaps_perm. apply swaps_one. constructor.
  - subst. rewrite <- (@nth_ext _ l (swap_at j j l) 0 0); [reflexivity|rewrite swap_at_length; reflexivity|].
    intros k _. rewrite swap_at_nth by assumption. destruct (Nat.eqb_spec k j) as [->|]; reflexivity.
  - rewrite swap_at_comm by assumption. destruct (@swap_at_swaps j i l H Hi) as (l1 & x & m & y & l2 & E & ->). rewrite E.
    eapply swaps_perm. apply swaps_one. constructor.
Qed.

Lemma gw_swap diag nc sym k u sg i j : i < snd nc -> j < snd nc -> i <> j -> gw diag nc sym (k, u, sg) ->
  gw diag nc sym (k, swap_at i j u, if sym =? ch_minus then (- sg)%Z else sg).
Proof.
  intros Hi Hj Hij (Hk & p & s0 & Hp & -> & ->). split; [exact Hk|]. apply pws_seq_in in Hp as [Hp Hs].
  pose proof (Permutation_length Hp) as HLp. rewrite seq_length in HLp.
  exists (swap_at i j p), (- s0)%Z. split; [|split].
  - assert (Hpar : par (swap_at i j p) = negb (par p)).
    { pose proof (Permutation_NoDup Hp (seq_NoDup _ _)) as Hnd. destruct (Nat.lt_total i j) as [H|[H|H]]; [|contradiction|].
      - destruct (@swap_at_swaps i j p H ltac:(lia)) as (l1 & x & m & y & l2 & E & ->). rewrite E in *.
        apply par_swap. exact Hnd.
      - rewrite swap_at_comm by lia. destruct (@swap_at_swaps j i p H ltac:(lia)) as (l1 & x & m & y & l2 & E & ->).
        rewrite E in *. apply par_swap. exact Hnd. }
    pose proof (@pws_seq_intro (snd nc) (swap_at i j p)) as H.
    rewrite Hpar in H. replace (- s0)%Z with (if negb (par p) then -1 else 1)%Z by (rewrite Hs; destruct (par p); reflexivity).
    apply H. rewrite Hp. apply swap_at_perm; lia.
  - unfold pick. symmetry. apply swap_at_map; [lia|lia|right; exact I].
  - destruct (sym =? ch_minus); reflexivity.
Qed.

Lemma gw_swaps diag nc sym k u sg : gw diag nc sym (k, u, sg) ->
  exists m, swaps m (nth k (tril_tuples (fst nc) (snd nc) diag) []) u /\ sg = if sym =? ch_minus then minus_one_pow m else 1%Z.
Proof.
  intros (Hk & p & s0 & Hp & -> & ->). destruct (tril_nth _ _ _ Hk) as (HL & _).
  destruct (pws_seq_in _ _ _ Hp) as [HP _]. destruct (perm_swaps HP) as [m Hm]. exists m. split.
  - pose proof (swaps_map (fun j => nth j (nth k (tril_tuples (fst nc) (snd nc) diag) []) 0) Hm) as H.
    rewrite <- HL, map_nth_seq in H at 1. exact H.
  - rewrite (@pws_sign_swaps _ _ _ _ _ (seq_NoDup _ _) Hp Hm). reflexivity.
Qed.
