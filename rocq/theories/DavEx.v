(** Concrete data for the Davidson theorems: exact rational numbers, with the norm where it is rational. *)
From Coq Require Import List Arith Bool ZArith QArith Qcanon Lia Ring.
From Verif Require Import Base Alg DavModel DavSpec DavProofs.
Import ListNotations.
Local Open Scope nat_scope.

Definition F := Qc_fld.
Definition qi (z : Z) : F := Q2Qc (inject_Z z).
Definition qlt (x y : F) : bool := negb (Qle_bool (this y) (this x)).
Definition qnorm (n : nat) (v : list F) : F :=
  let s := inner (F := F) n v v in
  let r := Q2Qc (Z.sqrt (Qnum (this s)) # Z.to_pos (Z.sqrt (Zpos (Qden (this s))))) in
  if Qeq_bool (this (r * r)%Qc) (this s) then r else r0.
Lemma qnorm_ok n : is_norm n (qnorm n).
Proof.
  intros v _. unfold qnorm. set (s := inner n v v). set (r := Q2Qc _). destruct (Qeq_bool (this (r * r)%Qc) (this s)) eqn:E; [left|right; reflexivity].
  apply Qc_is_canon, Qeq_bool_eq. exact E.
Qed.
Lemma qlt_order : strict_order (F := F) qlt.
Proof.
  unfold qlt. split.
  - intros x. apply negb_false_iff, Qle_bool_iff, Qle_refl.
  - intros x y z A B. apply negb_true_iff in A, B. apply negb_true_iff. destruct (Qle_bool (this z) (this x)) eqn:E; [|reflexivity].
    exfalso. apply Qle_bool_iff in E. assert (A' : ~ (this y <= this x)%Q) by (intros X; apply Qle_bool_iff in X; congruence).
    assert (B' : ~ (this z <= this y)%Q) by (intros X; apply Qle_bool_iff in X; congruence). apply Qnot_le_lt in A'. apply Qnot_le_lt in B'.
    apply (Qlt_not_le _ _ (Qlt_trans _ _ _ A' B') E).
  - intros x y A B. apply negb_false_iff, Qle_bool_iff in A. apply negb_false_iff, Qle_bool_iff in B. apply Qc_is_canon, Qle_antisym; assumption.
Qed.
(** A matrix as an operator. *)
Definition apply_rows (n : nat) (rows : list (list F)) (v : list F) : list F := map (fun r => inner (F := F) n r v) rows.
Add Ring FringDavE : (rth F).
Lemma apply_linear n rows : length rows = n -> linear_map n (apply_rows n rows).
Proof.
  intros L. unfold apply_rows.
  assert (C : forall v k, k < n -> coord (F := F) (map (fun r => inner (F := F) n r v) rows) k = inner (F := F) n (nth k rows []) v).
  { intros v k Hk. unfold coord. rewrite (nth_indep _ r0 (inner (F := F) n [] v)) by (rewrite map_length; lia). apply (map_nth (fun r => inner (F := F) n r v)). }
  split; [intros v _; rewrite map_length; exact L|]. split.
  - intros u v w _ _ _ H k Hk. rewrite !C by exact Hk. unfold inner. rewrite <- (@rsum_map_add F). apply (@rsum_map_ext F). intros j Hj. apply in_seq in Hj. rewrite H by lia. ring.
  - intros c u w _ _ H k Hk. rewrite !C by exact Hk. unfold inner. rewrite <- (@rsum_map_mul_l F). apply (@rsum_map_ext F). intros j Hj. apply in_seq in Hj. rewrite H by lia. ring.
Qed.
(** A stable insertion sort of positions. *)
Fixpoint ins (l : list F) (i : nat) (s : list nat) : list nat :=
  match s with [] => [i] | j :: s' => if qlt (nth j l r0) (nth i l r0) then j :: ins l i s' else i :: s end.
Definition order (l : list F) : list nat := fold_right (ins l) [] (seq 0 (length l)).
From Coq Require Import Permutation Sorted.
Lemma ins_perm l i s : Permutation (ins l i s) (i :: s).
Proof. induction s as [|j s IH]; cbn; [constructor; constructor|]. destruct (qlt _ _); [|apply Permutation_refl]. eapply perm_trans; [constructor; exact IH|constructor]. Qed.
Definition before l (i j : nat) : Prop := qlt (nth j l r0) (nth i l r0) = false.
Lemma before_trans l i j k : before l i j -> before l j k -> before l i k.
Proof.
  unfold before, qlt. intros A B. apply negb_false_iff, Qle_bool_iff in A. apply negb_false_iff, Qle_bool_iff in B. apply negb_false_iff, Qle_bool_iff.
  apply (Qle_trans _ _ _ A B).
Qed.
Lemma ins_sorted l i s : StronglySorted (before l) s -> StronglySorted (before l) (ins l i s).
Proof.
  induction s as [|j s IH]; intros H; cbn [ins]; [constructor; constructor|]. inversion H as [|? ? H1 H2]; subst. destruct (qlt (nth j l r0) (nth i l r0)) eqn:E.
  - constructor; [apply IH, H1|]. rewrite Forall_forall in *. intros z Hz. apply (Permutation_in _ (ins_perm l i s)) in Hz. destruct Hz as [<-|Hz]; [|apply H2, Hz].
    unfold before, qlt in *. apply negb_true_iff in E. apply negb_false_iff, Qle_bool_iff. apply Qlt_le_weak, Qnot_le_lt. intros X. apply Qle_bool_iff in X. congruence.
  - constructor; [exact H|]. constructor; [exact E|]. rewrite Forall_forall in *. intros z Hz. apply (before_trans l i j z); [exact E|apply H2, Hz].
Qed.
Lemma order_sorts : sorts qlt order.
Proof.
  intros l. split.
  - unfold order. generalize (seq 0 (length l)). induction l0 as [|j s IH]; cbn; [constructor|]. eapply perm_trans; [apply ins_perm|constructor; exact IH].
  - assert (S : StronglySorted (before l) (order l)) by (unfold order; generalize (seq 0 (length l)); induction l0 as [|j s IH]; cbn; [constructor|apply ins_sorted, IH]).
    assert (L : length (order l) = length l). { unfold order. rewrite <- (seq_length (length l) 0) at 2. generalize (seq 0 (length l)). induction l0 as [|j s IH]; cbn; [reflexivity|]. rewrite (Permutation_length (ins_perm l j _)). cbn. congruence. }
    revert S L. generalize (order l). intros o S L i j Hij Hj. rewrite <- L in Hj. clear L. revert i j Hij Hj. induction S as [|x o S IH H]; intros [|i] [|j] Hij Hj; cbn in Hj; try lia.
    + cbn. rewrite Forall_forall in H. apply H, nth_In. lia.
    + cbn. apply IH; lia.
Qed.

(** The operator with rows (0,3,4), (3,0,0), (4,0,0) has eigenvalues -5, 0, 5. *)
Definition rows3 : list (list F) := [[qi 0; qi 3; qi 4]; [qi 3; qi 0; qi 0]; [qi 4; qi 0; qi 0]].
Definition op3 : list F -> list F := apply_rows 3 rows3.
Definition diag3 : list F := [qi 0; qi 0; qi 0].
(** The eigenvalues and vectors of the matrices that occur. *)
Definition eig3 (m : list (list F)) : list (F * F) * list (list (F * F)) :=
  match m with
  | [[a]] => ([(a, qi 0)], [[(qi 1, qi 0)]])
  | _ => ([(qi 5, qi 0); (qi (-5), qi 0)], [[(qi 1, qi 0); (qi 1, qi 0)]; [(qi 1, qi 0); (qi (-1), qi 0)]])
  end.
Definition is0 (x : F) : bool := Qeq_bool (this x) 0.
Definition pick3 := pick_real F qlt order is0 (Q2Qc (1 # 1000)).
Definition small_tol : F := Q2Qc (1 # 1000000).
Definition cycle3 (follow : bool) := cycle (F := F) qlt (qnorm 3) op3 eig3 pick3 diag3 1 20 40 small_tol (Q2Qc (1 # 1000)) small_tol (qi 1) (qi 0) follow.
Definition davidson3 (max_iter : nat) :=
  davidson (F := F) qlt (qnorm 3) op3 eig3 (fun m => (fst (eig3 m), snd (eig3 m), snd (eig3 m))) pick3 diag3 1 20 40 small_tol (Q2Qc (1 # 1000)) small_tol (qi 1) (qi 0)
    false (fun _ _ => qi 7) [[qi 1; qi 0; qi 0]] max_iter false.
Definition start3 := start (F := F) 1 (fun _ _ => qi 7) [[qi 1; qi 0; qi 0]].
Definition show (r : result (list bool * list F * list (list (F * F)))) :=
  match r with Ok (c, w, v) => Ok (c, map this w, map (map (fun z => (this (fst z), this (snd z)))) v) | Err e => Err e end.

(** A shift of eight vectors, doubled, with the eigenvector of the subspace problem always the last basis vector. *)
Definition rows8 : list (list F) := map (fun i => map (fun j => if i =? S j then qi 2 else qi 0) (seq 0 8)) (seq 0 8).
Definition op8 : list F -> list F := apply_rows 8 rows8.
Definition eig8 (m : list (list F)) : list (F * F) * list (list (F * F)) :=
  let k := length m in (repeat (qi 0, qi 0) k, repeat (repeat (qi 0, qi 0) (k - 1) ++ repeat (qi 1, qi 0) (Nat.min 1 k)) k).
Definition cycle8 := cycle (F := F) qlt (qnorm 8) op8 eig8 pick3 (repeat (qi 0) 8) 1 20 40 small_tol (Q2Qc (1 # 1000)) small_tol (qi 1) (qi 0).
Definition start8 := start (F := F) 1 (fun _ _ => qi 7) [qi 1 :: repeat (qi 0) 7].
Definition loop8 follow k := loop (F := F) qlt (qnorm 8) op8 eig8 pick3 (repeat (qi 0) 8) 1 20 40 small_tol (Q2Qc (1 # 1000)) small_tol (qi 1) (qi 0) follow k start8.
Lemma eig8_shaped : well_shaped eig8.
Proof.
  intros m. unfold eig8. cbn [fst snd]. split; [apply repeat_length|]. split; [apply repeat_length|]. intros c Hc. apply repeat_spec in Hc. subst c. rewrite app_length, !repeat_length. destruct m; cbn; lia.
Qed.
Definition spaces (r : result (state F)) : result nat := match r with Ok s => Ok (space s) | Err e => Err e end.

Definition two_cycles (one : state F -> result (outcome F)) (s0 : state F) : option (nat * list (list Q)) :=
  match one s0 with
  | Ok (Continue s) => match one s with Ok (Break s') => Some (space s', map (map this) (basis s')) | _ => None end
  | _ => None
  end.
Lemma two_ok : two_cycles (cycle3 false) start3 = Some (2, [[1 # 1; 0 # 1; 0 # 1]; [0 # 1; 3 # 5; 4 # 5]]%Q).
Proof. vm_compute. reflexivity. Qed.
Lemma two_after one s0 k b : two_cycles one s0 = Some (k, b) ->
  exists s s', after one s0 (Continue s) /\ after one s0 (Break s') /\ space s' = k /\ map (map this) (basis s') = b.
Proof.
  intros T. unfold two_cycles in T. destruct (one s0) as [[s|s]|] eqn:E1; try discriminate T. destruct (one s) as [[s'|s']|] eqn:E2; try discriminate T.
  injection T as T1 T2. exists s, s'. split; [apply after_first, E1|]. split; [apply (after_next (s := s)); [apply after_first, E1|exact E2]|]. split; assumption.
Qed.
Definition reached3 := two_after _ _ _ _ two_ok.
