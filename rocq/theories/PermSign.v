(** Inversion parity and its behaviour under exchanges. *)
From Verif Require Import Base PermSpec PermModel.
Set Implicit Arguments.

Definition below (x : nat) (l : list nat) : nat := length (filter (fun y => y <? x) l).
Fixpoint ninv (l : list nat) : nat :=
  match l with [] => 0 | x :: l' => below x l' + ninv l' end.
(** Parity of the number of inversions: [true] for odd. *)
Definition par (l : list nat) : bool := Nat.odd (ninv l).

Lemma below_app x l1 l2 : below x (l1 ++ l2) = below x l1 + below x l2.
Proof. unfold below. rewrite filter_app, app_length. reflexivity. Qed.

Lemma below_cons x y l : below x (y :: l) = (if y <? x then 1 else 0) + below x l.
Proof. unfold below; cbn [filter]. destruct (y <? x); reflexivity. Qed.

Lemma below_perm x l1 l2 : Permutation l1 l2 -> below x l1 = below x l2.
Proof.
  induction 1; rewrite ?below_cons; lia.
Qed.

Fixpoint cross (l1 l2 : list nat) : nat :=
  match l1 with [] => 0 | x :: l1' => below x l2 + cross l1' l2 end.

Lemma ninv_app l1 l2 : ninv (l1 ++ l2) = ninv l1 + ninv l2 + cross l1 l2.
Proof. induction l1 as [|x l1 IH]; cbn; [lia|]. rewrite IH, below_app. lia. Qed.

Lemma cross_perm_r l1 l2 l2' : Permutation l2 l2' -> cross l1 l2 = cross l1 l2'.
Proof. intros H; induction l1 as [|x l1 IH]; cbn; [reflexivity|]. rewrite IH, (below_perm x H); reflexivity. Qed.

Lemma par_adj l1 x y l2 : x <> y -> par (l1 ++ x :: y :: l2) = negb (par (l1 ++ y :: x :: l2)).
Proof.
  intros Hne. unfold par. rewrite !ninv_app.
  rewrite (cross_perm_r l1 (l2:=x::y::l2) (l2':=y::x::l2)) by constructor.
  cbn [ninv]. rewrite !below_cons.
  rewrite !Nat.odd_add.
  destruct (Nat.ltb_spec y x), (Nat.ltb_spec x y); try lia; cbn [Nat.add];
    rewrite ?Nat.odd_succ, <- ?Nat.negb_odd;
    destruct (Nat.odd (ninv l1)), (Nat.odd (cross l1 (y :: x :: l2))),
      (Nat.odd (below x l2)), (Nat.odd (below y l2)), (Nat.odd (ninv l2)); reflexivity.
Qed.

Lemma par_move l1 x m l2 : ~ In x m -> par (l1 ++ x :: m ++ l2) = xorb (Nat.odd (length m)) (par (l1 ++ m ++ x :: l2)).
Proof.
  revert l1; induction m as [|y m IH]; intros l1 Hni.
  - cbn. destruct (par (l1 ++ x :: l2)); reflexivity.
  - cbn [app length]. rewrite par_adj by (intros ->; apply Hni; left; reflexivity).
    replace (l1 ++ y :: x :: m ++ l2) with ((l1 ++ [y]) ++ x :: m ++ l2) by (rewrite <- app_assoc; reflexivity).
    rewrite IH by (intros H; apply Hni; right; exact H).
    rewrite <- app_assoc. cbn [app]. rewrite Nat.odd_succ, <- Nat.negb_odd.
    destruct (Nat.odd (length m)), (par (l1 ++ y :: m ++ x :: l2)); reflexivity.
Qed.

Lemma par_swap l1 x m y l2 : NoDup (l1 ++ x :: m ++ y :: l2) ->
  par (l1 ++ y :: m ++ x :: l2) = negb (par (l1 ++ x :: m ++ y :: l2)).
Proof.
  intros Hnd.
  apply NoDup_remove_2 in Hnd as Hx.
  assert (Hy : ~ In y (l1 ++ x :: m)).
  { replace (l1 ++ x :: m ++ y :: l2) with ((l1 ++ x :: m) ++ y :: l2) in Hnd by (rewrite <- app_assoc; reflexivity).
    apply NoDup_remove_2 in Hnd. intros H; apply Hnd. apply in_or_app. left; exact H. }
  rewrite !in_app_iff in Hx. rewrite !in_app_iff in Hy. cbn [In] in Hx, Hy.
  assert (Hxy : x <> y) by intuition.
  rewrite (@par_move l1 x m (y::l2)) by intuition.
  rewrite par_move by intuition.
  rewrite !app_assoc, (@par_adj (l1 ++ m) x y) by exact Hxy.
  destruct (Nat.odd (length m)), (par ((l1 ++ m) ++ y :: x :: l2)); reflexivity.
Qed.

Lemma swaps_perm {A} k (l p : list A) : swaps k l p -> Permutation l p.
Proof.
  induction 1 as [l|k l l1 x m y l2 H IH]; [reflexivity|].
  rewrite IH. apply Permutation_app_head.
  transitivity (y :: (x :: m) ++ l2).
  - symmetry. apply (Permutation_middle (x :: m) l2 y).
  - apply perm_skip. apply (Permutation_middle m l2 x).
Qed.

Lemma swaps_par k (l p : list nat) : NoDup l -> swaps k l p -> par p = xorb (Nat.odd k) (par l).
Proof.
  intros Hnd. induction 1 as [l|k l l1 x m y l2 H IH].
  - cbn. destruct (par l); reflexivity.
  - rewrite par_swap.
    + rewrite (IH Hnd), Nat.odd_succ, <- Nat.negb_odd. destruct (Nat.odd k), (par l); reflexivity.
    + apply (Permutation_NoDup (swaps_perm H)). exact Hnd.
Qed.

Lemma swaps_trans {A} j k (a b c : list A) : swaps j a b -> swaps k b c -> swaps (j + k) a c.
Proof.
  intros Hab Hbc. induction Hbc as [l|k l l1 x m y l2 H IH].
  - rewrite Nat.add_0_r. exact Hab.
  - rewrite Nat.add_succ_r. apply swaps_one. apply IH. exact Hab.
Qed.

Lemma swaps_sym_one {A} (l1 : list A) x m y l2 : swaps 1 (l1 ++ y :: m ++ x :: l2) (l1 ++ x :: m ++ y :: l2).
Proof. apply swaps_one. constructor. Qed.

Lemma swaps_cons {A} k (x : A) l p : swaps k l p -> swaps k (x :: l) (x :: p).
Proof.
  induction 1 as [l|k l l1 a m b l2 H IH]; [constructor|].
  change (x :: l1 ++ b :: m ++ a :: l2) with ((x :: l1) ++ b :: m ++ a :: l2).
  apply swaps_one. exact IH.
Qed.

Lemma swaps_map {A B} (f : A -> B) k l p : swaps k l p -> swaps k (map f l) (map f p).
Proof.
  induction 1 as [l|k l l1 a m b l2 H IH]; [constructor|].
  rewrite map_app in *. cbn [map] in *. rewrite map_app in *. cbn [map] in *.
  apply swaps_one. exact IH.
Qed.

(** A path of swaps starting from a mapped list is the image of a path. *)
Lemma map_eq_app {A B} (f : A -> B) l l1 l2 : map f l = l1 ++ l2 ->
  exists a b, l = a ++ b /\ map f a = l1 /\ map f b = l2.
Proof.
  revert l; induction l1 as [|y l1 IH]; intros l H.
  - exists [], l. repeat split. exact H.
  - destruct l as [|x l]; [discriminate|]. cbn in H. injection H as Hx Hl.
    destruct (IH _ Hl) as (a & b & -> & Ha & Hb).
    exists (x :: a), b. cbn. rewrite Hx, Ha. auto.
Qed.

Lemma swaps_unmap {A B} (f : A -> B) k l p : swaps k (map f l) p ->
  exists q, p = map f q /\ swaps k l q.
Proof.
  remember (map f l) as l0 eqn:E. intros H; revert l E.
  induction H as [l0|k l0 l1 a m b l2 H IH]; intros l ->.
  - exists l. split; [reflexivity|constructor].
  - destruct (IH _ eq_refl) as (q & Hq & Hs).
    symmetry in Hq. apply map_eq_app in Hq as (q1 & q' & -> & <- & H2).
    destruct q' as [|a' q']; [discriminate|]. cbn in H2. injection H2 as <- H2.
    apply map_eq_app in H2 as (m' & q'' & -> & <- & H3).
    destruct q'' as [|b' q'']; [discriminate|]. cbn in H3. injection H3 as <- <-.
    exists (q1 ++ b' :: m' ++ a' :: q''). split.
    + rewrite map_app. cbn. rewrite map_app. reflexivity.
    + apply swaps_one. exact Hs.
Qed.

Lemma perm_swaps {A} (l p : list A) : Permutation l p -> exists k, swaps k l p.
Proof.
  induction 1 as [|x l p _ [k IH]|x y l|l1 l2 l3 _ [j IH1] _ [k IH2]].
  - exists 0. constructor.
  - exists k. apply swaps_cons. exact IH.
  - exists 1. apply (swaps_one (k:=0) [] y [] x l). constructor.
  - exists (j + k). eapply swaps_trans; eassumption.
Qed.
