(** The antisymmetry of the coefficients that the unrestricted conversion makes: checks. *)
From Coq Require Import String ZArith Lia.
From Verif Require Import Base Alg ArrModel ArrProofs PermModel PermSpec TensorModel TensorSpec EinsumModel EinsumProofs EinPathModel SpaceModel AnsatzModel VecModel VecSpec ListAux CcModel CcThms CgModel CgSpec CgFormSpec CgNames CgRun CgRelSpec CgLagSpec CgCompare CgCompareProofs CgDens CgEomThms CgExpSpec CgExp FciModel FciSpec FciProofs FciConvModel FciConvSpec FciConv1 FciConv2 FciConv3.
Set Implicit Arguments.
Local Open Scope list_scope.
Local Open Scope nat_scope.

(** The coefficients are antisymmetric. *)
Definition swap_prog (x : ref) (ks : list cls) (n i j : nat) : prog :=
  mkprog [(x, ks)] [Assign n_t1 (Plain (Transpose x (exchange i j (seq 0 (2 * n))))); AddTo n_t1 (Plain (Copy x))] [(n_t1, ks)].
Definition same_kind (n nb i j : nat) : bool :=
  (nth i (excitation_key n) 0 =? nth j (excitation_key n) 0) && (nth i (comb n nb) 0 =? nth j (comb n nb) 0).
(** The first index of its kind. *)
Definition first_kind (n nb i : nat) : bool := forallb (fun k => negb (same_kind n nb k i)) (seq 0 i).
Definition swap_check B Sy T (x : ref) (ks : list cls) (n i j : nat) : bool :=
  (nth i ks 0 =? nth j ks 0) && negb (Pos.eqb x n_t1) && is_perm (2 * n) (exchange i j (seq 0 (2 * n))) &&
  computes B Sy id_split T (swap_prog x ks n i j) [].
Definition swaps_check B Sy T (x : ref) (ks : list cls) (n nb : nat) : bool :=
  (length ks =? 2 * n) && forallb (fun i => forallb (fun j => if first_kind n nb i && same_kind n nb i j then swap_check B Sy T x ks n i j else true) (seq (S i) (2 * n - S i))) (seq 0 (2 * n)).
Definition all_swaps_check B Sy T (x : nat -> nat -> ref) (ks : nat -> nat -> list cls) : bool :=
  forallb (fun n => forallb (fun nb => swaps_check B Sy T (x n nb) (ks n nb) n nb) (seq 0 (S n))) (seq 1 4).
Lemma swap_of B Sy T x ks n nb : all_swaps_check B Sy T x ks = true -> 1 <= n <= 4 -> nb <= n ->
  length (ks n nb) = 2 * n /\ forall i j, i < j < 2 * n -> first_kind n nb i = true -> same_kind n nb i j = true -> swap_check B Sy T (x n nb) (ks n nb) n i j = true.
Proof.
  intros P Hn Hb. unfold all_swaps_check in P. rewrite forallb_forall in P. specialize (P n). rewrite forallb_forall in P.
  assert (Q : swaps_check B Sy T (x n nb) (ks n nb) n nb = true) by (apply (P ltac:(apply in_seq; lia) nb); apply in_seq; lia).
  unfold swaps_check in Q. apply andb_prop in Q as [L Q]. apply Nat.eqb_eq in L. split; [exact L|]. intros i j Hij Hf Hs. rewrite forallb_forall in Q. specialize (Q i). rewrite forallb_forall in Q.
  assert (R : (if first_kind n nb i && same_kind n nb i j then swap_check B Sy T (x n nb) (ks n nb) n i j else true) = true) by (apply Q; apply in_seq; lia). rewrite Hf, Hs in R. exact R.
Qed.
Definition tensors_c : list (ref * list cls) := unrestricted_tensors Cluster.
Definition antisymmetry_c : symmetries := unrestricted_antisymmetry Cluster.
Definition table_c : table := expanded_unrestricted Coefficient.
Lemma swaps_ok : all_swaps_check tensors_c antisymmetry_c table_c (block_name Coefficient) kinds = true.
Proof. vm_compute. reflexivity. Qed.
