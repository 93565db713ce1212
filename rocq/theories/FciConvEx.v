(** Concrete cluster amplitudes for the conversion to CI vectors. *)
From Coq Require Import ZArith String.
From Verif Require Import Base ListAux Alg ArrModel ArrProofs PermModel PermSpec TensorModel TensorSpec SpaceModel SpaceSpec AnsatzModel VecModel VecSpec CcModel CcEx CgModel
  ExtModel FciModel FciSpec FciProofs FciEx CgSpec CgFormSpec CgRelSpec CgLagSpec CgPairs CgAgreeEx CgAgree2Ex CgExpSpec CgExpEx FciConvSpec.
Set Implicit Arguments.
Local Open Scope string_scope.
Local Open Scope list_scope.
Local Open Scope nat_scope.

(** One occupied and one virtual orbital of each spin. *)
Definition ones (c : cls) : nat := 1.
Lemma ones_sizes : spin_sizes fci_c fci_c ones.
Proof. repeat split. Qed.
Definition ex2_tamps : dict pystr (tval Qc_fld) :=
  [(str "t1", VSpin [(str "aa", mkarr [1; 1] (qs [5]%Z)); (str "bb", mkarr [1; 1] (qs [-2]%Z))]);
   (str "t2", VSpin [(str "aaaa", mkarr [1; 1; 1; 1] (qs [0]%Z)); (str "abab", mkarr [1; 1; 1; 1] (qs [3]%Z)); (str "bbbb", mkarr [1; 1; 1; 1] (qs [0]%Z))])].
Lemma ex2_tamps_ok : cluster_amplitudes fci_c fci_c 2 ex2_tamps.
Proof.
  intros n comb H1 H2 I. assert (X : n = 1 \/ n = 2) by lia. destruct X as [-> | ->]; vm_compute in I; repeat destruct I as [<-|I]; try destruct I; eexists; (split; [reflexivity|]); (split; [reflexivity|]);
    (split; [repeat constructor|]); intros idx i j Hi Li Lj N K S.
  all: cbn in Li, Lj; assert (Y : (i = 0 \/ i = 1 \/ i = 2 \/ i = 3) /\ (j = 0 \/ j = 1 \/ j = 2 \/ j = 3)) by lia;
    destruct Y as [[->|[->|[->| ->]]] [->|[->|[->| ->]]]]; try lia; try discriminate K; try discriminate S.
  all: repeat match goal with H : inb _ _ |- _ => inversion H; clear H; subst end; repeat match goal with H : Forall2 _ _ _ |- _ => inversion H; clear H; subst end;
    repeat match goal with H : _ < 1 |- _ => apply Nat.lt_1_r in H; subst end; apply qeqb_eq; vm_compute; reflexivity.
Qed.

(** Restricted amplitudes of a closed shell, whatever the spatial excitations. *)
Definition closed_amps {F : fld} (sz : cls -> nat) (eB : env F) : dict pystr (tval F) :=
  map (fun q => (str (fst q), VArr (tab (map sz (repeat 0 (length (snd q)) ++ repeat 1 (length (snd q))))
    (fun idx => value sz eB (map spatial_label (occupied_of (snd q) ++ virtual_of (snd q))) (in_spatial Cluster (occupied_of (snd q)) (virtual_of (snd q))) idx)))) (restricted_names 4).
Lemma closed_amps_ok (F : fld) sz (eB : env F) m : m <= 4 -> closed_shell_amplitudes sz eB m (closed_amps sz eB).
Proof.
  intros Hm name p I. assert (J : In (name, p) (restricted_names 4)).
  { unfold restricted_names in *. apply filter_In in I as [I L]. apply filter_In. split; [exact I|]. apply Nat.leb_le in L. apply Nat.leb_le. lia. }
  clear I. exists (tab (map sz (repeat 0 (length p) ++ repeat 1 (length p))) (fun idx => value sz eB (map spatial_label (occupied_of p ++ virtual_of p)) (in_spatial Cluster (occupied_of p) (virtual_of p)) idx)).
  split; [|split; [split; [apply tab_wf|reflexivity]|intros idx Hi; apply (aget_tab r0), Hi]].
  unfold closed_amps. set (V := fun p => _) in |- *. cbn [In] in J. repeat (destruct J as [J|J]; [apply pair_equal_spec in J as [<- <-]; reflexivity|]). destruct J.
Qed.
(** Two spatial orbitals, one of them occupied. *)
Lemma ones_closed : closed_sizes fci_c ones.
Proof.
  split; [exact ones_sizes|]. split; [reflexivity|]. split; [reflexivity|]. intros c. unfold closed_split.
  do 8 (destruct c as [|c]; [split; [repeat constructor; intros []|reflexivity]|]). split; [repeat constructor; intros []|reflexivity].
Qed.
Definition ones_example : env Qc_fld := ex_basis ones (spatial_symmetry Cluster) (small (spatial_tensors Cluster)).
Lemma ones_symmetric : symmetric ones (spatial_symmetry Cluster) (spatial_tensors Cluster) ones_example.
Proof. apply small_symmetric. vm_compute. reflexivity. Qed.
Lemma ones_nonzero : exists x, dget pystr_eq_dec (str "t2") (closed_amps ones ones_example) = Some (VArr x) /\ aget r0 x [0; 0; 0; 0] <> r0.
Proof. eexists. split; [reflexivity|]. intros H. apply (f_equal Qcanon.this) in H. vm_compute in H. discriminate H. Qed.
