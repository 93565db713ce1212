(** Perturbative lambdas merged into the lambdas (C33). *)
From Coq Require Import List String.
From Verif Require Import Base Alg ArrModel PermModel TensorSpec EinsumModel SpaceModel AnsatzModel VecModel CcModel.
Import ListNotations.
Lemma dget_dset_str {V} k k' (v : V) (d : dict pystr V) : dget pystr_eq_dec k (dset pystr_eq_dec k' v d) = if pystr_eq_dec k k' then Some v else dget pystr_eq_dec k d.
Proof.
  induction d as [|[a w] d IH]; cbn; [reflexivity|]. destruct (pystr_eq_dec k' a) as [<-|N]; cbn.
  - destruct (pystr_eq_dec k k'); reflexivity.
  - rewrite IH. destruct (pystr_eq_dec k a) as [->|]; [|reflexivity]. destruct (pystr_eq_dec a k'); [congruence|reflexivity].
Qed.
Lemma merge_get (F : fld) (p l : dict pystr (tval F)) x : NoDup (map fst p) ->
  dget pystr_eq_dec x (merge l (Some p)) = match dget pystr_eq_dec x p with Some v => Some v | None => dget pystr_eq_dec x l end.
Proof.
  unfold merge. revert l. induction p as [|[k v] p IH]; intros l N; [reflexivity|]. inversion N as [|? ? Nk N']; subst.
  cbn [fold_left fst snd]. rewrite (IH _ N'), dget_dset_str. cbn. destruct (pystr_eq_dec x k) as [->|]; [|reflexivity].
  destruct (dget pystr_eq_dec k p) as [w|] eqn:E; [|reflexivity]. exfalso. apply Nk. clear -E. induction p as [|[a b] p IH]; [discriminate|]. cbn in *. destruct (pystr_eq_dec k a); [left; congruence|right; auto].
Qed.
Lemma merged_multipliers (F : fld) (c : cc F) func (l p : dict pystr (tval F)) perturbative :
  NoDup (map fst p) ->
  (forall x, dget pystr_eq_dec x (snd (r_update_lams c func l (Some p) perturbative)) =
             match dget pystr_eq_dec x p with Some v => Some v | None => dget pystr_eq_dec x l end) /\
  snd (g_update_lams c func l (Some p) perturbative) = snd (r_update_lams c func l (Some p) perturbative) /\
  (forall func', func perturbative (snd (r_update_lams c func l (Some p) perturbative)) = func' perturbative (snd (r_update_lams c func l (Some p) perturbative)) ->
     r_update_lams c func' l (Some p) perturbative = r_update_lams c func l (Some p) perturbative /\
     g_update_lams c func' l (Some p) perturbative = g_update_lams c func l (Some p) perturbative) /\
  snd (r_update_lams c func l None perturbative) = l /\ snd (g_update_lams c func l None perturbative) = l.
Proof.
  intros N. split; [|split; [|split; [|split]]]; try reflexivity.
  - intros x. exact (merge_get F p l x N).
  - unfold r_update_lams, g_update_lams. cbn [snd]. intros func' E. rewrite E. split; reflexivity.
Qed.
