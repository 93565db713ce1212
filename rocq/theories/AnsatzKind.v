(** Which methods are one-shot energy calculations and which have a perturbative correction (C22). *)
From Coq Require Import List String.
From Verif Require Import Base AnsatzModel AnsatzSpec AnsatzProofs AnsatzRanks.
Import ListNotations.
Local Open Scope list_scope.
Lemma is_prefix_iff p : forall s, is_prefix p s = true <-> exists r, s = p ++ r.
Proof.
  induction p as [|a p IH]; intros s; cbn.
  - split; [intros _; exists s; reflexivity|reflexivity].
  - destruct s as [|b s]; [split; [discriminate|intros (r & E); discriminate]|]. rewrite andb_true_iff, Nat.eqb_eq, IH. split.
    + intros (-> & r & ->). exists r. reflexivity.
    + intros (r & E). injection E as -> ->. split; [reflexivity|exists r; reflexivity].
Qed.
Lemma one_shot_iff a : is_one_shot a = true <-> forall s, s = fermion a \/ s = boson a -> s = [] \/ exists r, s = str "MP" ++ r.
Proof.
  unfold is_one_shot. rewrite forallb_forall. split; intros H s.
  - intros E. specialize (H s). rewrite orb_true_iff, is_prefix_iff in H. destruct H as [H|H]; [destruct E as [->| ->]; [left|right; left]; reflexivity|right; exact H|left; destruct s; [reflexivity|discriminate]].
  - intros E. rewrite orb_true_iff, is_prefix_iff. destruct (H s) as [->|R]; [destruct E as [<-|[<-|[]]]; [left|right]; reflexivity|right; reflexivity|left; exact R].
Qed.
Lemma perturbative_iff a : has_perturbative a = true <-> exists s, (s = fermion a \/ s = boson a) /\ In (chr_of "(") s /\ In (chr_of ")") s.
Proof.
  unfold has_perturbative. rewrite existsb_exists. split; intros (s & H & G); exists s.
  - rewrite andb_true_iff, !memb_In in G. split; [destruct H as [<-|[<-|[]]]; auto|exact G].
  - rewrite andb_true_iff, !memb_In. split; [destruct H as [->| ->]; [left|right; left]; reflexivity|exact G].
Qed.
Lemma named_kinds n df a : In n (map fst named_ansatzes) -> from_string n df = Ok a ->
  (is_one_shot a = true <-> n = str "MP2" \/ n = str "MP3") /\ (has_perturbative a = true <-> n = str "CCSD(T)").
Proof.
  assert (C : forallb (fun n => match from_string n df with
    | Ok a => Bool.eqb (is_one_shot a) (streqb n (str "MP2") || streqb n (str "MP3")) && Bool.eqb (has_perturbative a) (streqb n (str "CCSD(T)"))
    | Err _ => true end) (map fst named_ansatzes) = true) by (destruct df; vm_compute; reflexivity).
  assert (S : forall x y, streqb x y = true <-> x = y) by (intros x y; unfold streqb; destruct (pystr_eq_dec x y); split; congruence).
  intros H E. rewrite forallb_forall in C. specialize (C n H). cbv beta in C. rewrite E in C. apply andb_prop in C as [C1 C2].
  apply Bool.eqb_prop in C1, C2. rewrite C1, C2, orb_true_iff, !S. tauto.
Qed.
