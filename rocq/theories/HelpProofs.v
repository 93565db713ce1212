(** Helper functions of ebcc/util/misc.py: [argsort], [prod], [regularise_tuple]. *)
From Coq Require Import ZArith Permutation Sorted Lia.
From Verif Require Import Base ArrModel MiscModel GroupProofs.
Local Open Scope list_scope.
Local Open Scope nat_scope.

Lemma prod_fold l : forall a, fold_left (fun out v => (out * v)%Z) l a = (a * prod_ints l)%Z.
Proof.
  unfold prod_ints. induction l as [|x l IH]; intros a; cbn [fold_left]; [lia|]. rewrite IH, (IH (1 * x)%Z). lia.
Qed.
Lemma prod_cons x l : prod_ints (x :: l) = (x * prod_ints l)%Z.
Proof. unfold prod_ints at 1. cbn [fold_left]. rewrite prod_fold. lia. Qed.
Lemma prod_app l l' : prod_ints (l ++ l') = (prod_ints l * prod_ints l')%Z.
Proof. induction l as [|x l IH]; [cbn [app]; change (prod_ints []) with 1%Z; lia|]. cbn [app]. rewrite !prod_cons, IH. lia. Qed.
Lemma prod_perm l l' : Permutation l l' -> prod_ints l = prod_ints l'.
Proof. induction 1; rewrite ?prod_cons; try lia. Qed.
Lemma prod_rules : prod_ints [] = 1%Z /\ (forall x, prod_ints [x] = x) /\ (forall l l', prod_ints (l ++ l') = (prod_ints l * prod_ints l')%Z) /\
  (forall l l', Permutation l l' -> prod_ints l = prod_ints l').
Proof. split; [reflexivity|]. split; [intros x; rewrite prod_cons; change (prod_ints []) with 1%Z; lia|]. split; [exact prod_app|exact prod_perm]. Qed.

Lemma argsort_positions vals : Permutation (seq 0 (length vals)) (argsort vals) /\
  forall p q, p < q < length vals -> let i := nth p (argsort vals) 0 in let j := nth q (argsort vals) 0 in
    nth i vals 0 < nth j vals 0 \/ nth i vals 0 = nth j vals 0 /\ i < j.
Proof.
  split; [apply argsort_perm|]. intros p q H. pose proof (Permutation_length (argsort_perm vals)) as L. rewrite seq_length in L.
  pose proof (argsort_key_spec (fun i => nth i vals 0) 0 (length vals)) as S. cbn zeta in S. destruct S as [_ S]. change (fold_right _ [] _) with (argsort vals) in S.
  rewrite L in H. clear L. revert p q H. induction S as [|x l S IH FA]; intros p q H; cbn [length] in H; [lia|]. destruct q as [|q]; [lia|]. destruct p as [|p]; cbn [nth].
  - rewrite Forall_forall in FA. assert (I : In (nth q l 0) l) by (apply nth_In; lia). specialize (FA _ I). unfold lexk in FA. exact FA.
  - apply (IH p q). lia.
Qed.
Section Tuples.
  Variable A : Type.
  Lemma regularise_all (args : list (arg A)) out : regularise_tuple args = Ok out -> args = out \/ args = [Tup out].
  Proof. destruct args as [|[a|l] rest]; cbn [regularise_tuple]; intros H; [discriminate|left; injection H as <-; reflexivity|]. destruct rest; [|discriminate]. injection H as <-. right. reflexivity. Qed.
  Lemma regularise_forms (x : A) (rest : list (arg A)) : regularise_tuple (Item x :: rest) = Ok (Item x :: rest) /\ regularise_tuple [Tup (Item x :: rest)] = Ok (Item x :: rest).
  Proof. split; reflexivity. Qed.
  Lemma regularise_fails (l : list (arg A)) y rest : regularise_tuple (Tup l :: y :: rest) = Err ValueError.
  Proof. reflexivity. Qed.
End Tuples.
