(** Restricted amplitudes as unrestricted ones: checks. *)
From Coq Require Import String ZArith Lia.
From Verif Require Import Base Alg ArrModel PermModel TensorModel TensorSpec CgModel CgSpec CgFormSpec CgNames CgRun CgRelSpec CgLagSpec CgPairs CgCompare CgExpSpec FciSpec FciConvModel FciConv1 FciConv2 FciConv3 FciConvSwap.
Set Implicit Arguments.
Local Open Scope list_scope.
Local Open Scope nat_scope.

Definition closed (w : sort) (f : list nat -> list nat -> formula) : table :=
  flat_map (fun n => map (fun nb => let p := stored n nb in (block_name w n nb, (map spatial_label (occupied_of p ++ virtual_of p), f (occupied_of p) (virtual_of p)))) (seq 0 (S n))) orders.
Definition closed_stored : table := closed Cluster (divided_by_spins (in_spatial Cluster)).
Definition closed_expanded : table := closed Coefficient (fun os vs => replaced (in_spatial Cluster) (expansion Coefficient os vs)).
Definition tensors_r := spatial_tensors Cluster.
Definition symmetry_r := spatial_symmetry Cluster.
Definition table_r := own_restricted Cluster.
Definition coefficients_r := expanded_restricted Coefficient.
Definition spatial (n : nat) : list cls := repeat 0 n ++ repeat 1 n.

(** The terms of a symmetrisation. *)
Definition terms (sub : string) : list (list nat * Z) :=
  match rename (str sub) with
  | Ok sub1 =>
      let chars := sorted_set sub1 in
      match symmetry_compress (map (count sub1) chars) (repeat ch_minus (length sub1)) 0 with
      | Ok symc =>
          let inds := map (fun cs => group_positions sub1 (fst cs)) (combine chars symc) in
          map (fun tup => (assemble_perm (length sub1) inds (map fst tup), fold_right Z.mul 1%Z (map snd tup))) (product (map (@permutations_with_signs nat) inds))
      | Err _ => []
      end
  | Err _ => []
  end.
Definition terms_ok (sub : string) : bool :=
  match rename (str sub) with
  | Ok sub1 =>
      match symmetry_compress (map (count sub1) (sorted_set sub1)) (repeat ch_minus (length sub1)) 0 with
      | Ok _ => forallb (fun t => match fst t with p0 :: _ => p0 <? length sub1 | [] => false end) (terms sub)
      | Err _ => false
      end
  | Err _ => false
  end.
Definition sym_prog (x y : ref) (n : nat) (pre : rhs) (sub : string) (d : nat) : prog :=
  mkprog [(x, spatial n)]
         ([Assign n_c1 (Plain pre); Assign n_c2 (Plain (Zeros (spatial n)))] ++ map (fun ps => AddTo n_c2 (Times (Transpose n_c1 (fst ps)) (snd ps) 1)) (terms sub) ++
          [Assign y (Times (Copy n_c2) 1 (Pos.of_nat d))]) [(y, spatial n)].
Definition move_prog (x y : ref) (n : nat) (pre : rhs) : prog := mkprog [(x, spatial n)] [Assign y (Plain pre)] [(y, spatial n)].
Definition sym_check (x : ref) (n nb : nat) (pre : rhs) (sub : string) (d : nat) : bool :=
  let p := sym_prog x (block_name Cluster n nb) n pre sub d in
  terms_ok sub && (0 <? d) && check_run p && computes tensors_r symmetry_r id_split table_r p closed_stored.
Definition move_check T (x y : ref) (n : nat) (pre : rhs) Tout : bool :=
  let p := move_prog x y n pre in check_run p && computes tensors_r symmetry_r id_split T p Tout.
Local Open Scope string_scope.
Definition axes_aaab : list nat := [0; 2; 3; 1; 4; 6; 7; 5].
Definition axes_baaa : list nat := [1; 0; 2; 3; 5; 4; 6; 7].
Definition axes_4a : list nat := [0; 3; 1; 2; 4; 7; 5; 6].
Lemma to_blocks :
  move_check table_r n_t1 (block_name Cluster 1 0) 1 (Copy n_t1) closed_stored = true /\
  move_check table_r n_t1 (block_name Cluster 1 1) 1 (Copy n_t1) closed_stored = true /\
  sym_check n_t2 2 0 (Copy n_t2) "iiaa" 4 = true /\
  move_check table_r n_t2 (block_name Cluster 2 1) 2 (Copy n_t2) closed_stored = true /\
  sym_check n_t2 2 2 (Copy n_t2) "iiaa" 4 = true /\
  sym_check n_t3 3 0 (Copy n_t3) "iiiaaa" 72 = true /\
  sym_check n_t3 3 1 (Copy n_t3) "ijiaba" 8 = true /\
  sym_check n_t3 3 2 (Copy n_t3) "ijiaba" 8 = true /\
  sym_check n_t3 3 3 (Copy n_t3) "iiiaaa" 72 = true /\
  sym_check n_t4 4 0 (Copy n_t4) "iiiiaaaa" (576 * 4) = true /\
  sym_check n_t4a 4 1 (Transpose n_t4a axes_aaab) "iiijaaab" 216 = true /\
  sym_check n_t4 4 2 (Copy n_t4) "ijijabab" 64 = true /\
  sym_check n_t4a 4 3 (Transpose n_t4a axes_baaa) "jiiibaaa" 216 = true /\
  sym_check n_t4 4 4 (Copy n_t4) "iiiiaaaa" (576 * 4) = true.
Proof. repeat apply conj; vm_compute; reflexivity. Qed.
Lemma from_blocks :
  move_check closed_expanded (block_name Coefficient 1 1) n_c1 1 (Copy (block_name Coefficient 1 1)) coefficients_r = true /\
  move_check closed_expanded (block_name Coefficient 2 1) n_c2 2 (Copy (block_name Coefficient 2 1)) coefficients_r = true /\
  move_check closed_expanded (block_name Coefficient 3 1) n_c3 3 (Copy (block_name Coefficient 3 1)) coefficients_r = true /\
  move_check closed_expanded (block_name Coefficient 4 2) n_c4 4 (Copy (block_name Coefficient 4 2)) coefficients_r = true /\
  move_check closed_expanded (block_name Coefficient 4 1) n_c4a 4 (Transpose (block_name Coefficient 4 1) axes_4a) coefficients_r = true.
Proof. repeat apply conj; vm_compute; reflexivity. Qed.
Lemma closed_coefficients_check : forallb (fun n => computes tensors_r symmetry_r closed_split closed_stored (u_t_to_c n) closed_expanded) (seq 1 4) = true.
Proof. vm_compute. reflexivity. Qed.
Lemma closed_swaps : all_swaps_check tensors_r symmetry_r closed_stored (block_name Cluster) (fun n _ => spatial n) = true.
Proof. vm_compute. reflexivity. Qed.
