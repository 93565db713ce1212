(** Concrete amplitudes and coefficients for the conversions between them. *)
From Coq Require Import List String ZArith QArith Qcanon Lia.
From Verif Require Import Base Alg ArrModel EinsumModel CgModel CgSpec CgFormSpec CgProofs CgCompare CgCompareProofs CgBuild CgNames CgTables CgTables2 CgRelSpec CgLagSpec CgAgreeEx CgAgree2Ex CgExpSpec.
Import ListNotations.
Local Open Scope nat_scope. Local Open Scope list_scope.

Definition all_conversions : list prog :=
  general_to_coefficients ++ general_to_amplitudes ++ unrestricted_to_coefficients ++ unrestricted_to_amplitudes ++ restricted_to_coefficients ++ restricted_to_amplitudes.
Lemma conversions_nodup : forallb (fun p => nodup_names (map fst (p_in p))) all_conversions = true.
Proof. vm_compute. reflexivity. Qed.
Lemma conversions_called p : In p all_conversions -> forall T (F : fld) sz (eB : env F), exists e, called_with sz eB T p e.
Proof.
  intros Hp T F sz eB. pose proof conversions_nodup as H. rewrite forallb_forall in H. specialize (H p Hp). apply nodup_names_ok in H.
  exists (build sz id_blocks T eB (p_in p)). split; [apply build_args, H|apply build_given; [apply splits_id|exact H]].
Qed.

(** Arbitrary numbers for single and double excitations, zero for higher ones. *)
Definition small (B : list (ref * list cls)) : list (ref * list cls) := filter (fun q => length (snd q) <=? 4) B.
Lemma ex_basis_none sz S B x : ~ In x (map fst B) -> ex_basis sz S B x = None.
Proof.
  induction B as [|[y cs] B IH]; cbn [map ex_basis]; intros H; [reflexivity|]. unfold bindv. destruct (Pos.eqb_spec x y) as [->|N]; [destruct H; left; reflexivity|].
  apply IH. intros I. apply H. right. exact I.
Qed.
Lemma small_symmetric sz S B : nodup_names (map fst B) && sym_check sz S (small B) = true -> symmetric sz S B (ex_basis sz S (small B)).
Proof.
  intros H. apply andb_prop in H as [Hn H]. apply nodup_names_ok in Hn. apply sym_check_ok in H. intros x cs l axes neg Hx Hl Ha idx Hi. destruct (length cs <=? 4) eqn:L.
  - apply (H x cs l axes neg); [apply filter_In; split; assumption|assumption..].
  - rewrite ex_basis_none; [destruct neg; [apply Qc_is_canon|]; reflexivity|]. intros I. apply in_map_iff in I as ([y ds] & E & I). cbn [fst] in E. subst y. apply filter_In in I as [I J]. cbn [snd] in J.
    assert (X : cs = ds); [|congruence]. clear - Hn Hx I. induction B as [|[y es] B IH]; [destruct Hx|]. inversion Hn as [|? ? N1 N2]; subst. cbn [fst] in N1.
    destruct Hx as [Hx|Hx], I as [I|I]; [congruence| | |apply IH; assumption]; injection Hx as -> || injection I as ->; subst; destruct N1; [apply (in_map fst) in I; exact I|apply (in_map fst) in Hx; exact Hx].
Qed.
Definition general_example (w : sort) : env Qc_fld := ex_basis general_sz (general_antisymmetry w) (small (general_tensors w)).
Definition unrestricted_example (w : sort) : env Qc_fld := ex_basis spin_sz (unrestricted_antisymmetry w) (small (unrestricted_tensors w)).
Definition spatial_example (w : sort) : env Qc_fld := ex_basis closed_sz (spatial_symmetry w) (small (spatial_tensors w)).
Lemma examples_symmetric w : symmetric general_sz (general_antisymmetry w) (general_tensors w) (general_example w) /\
  symmetric spin_sz (unrestricted_antisymmetry w) (unrestricted_tensors w) (unrestricted_example w) /\
  symmetric closed_sz (spatial_symmetry w) (spatial_tensors w) (spatial_example w).
Proof. split; [|split]; apply small_symmetric; destruct w; vm_compute; reflexivity. Qed.
Lemma examples_nonzero : tens Qc_fld (general_example Cluster n_t2) [0; 1; 0; 1] <> r0 /\ tens Qc_fld (unrestricted_example Coefficient n_c2'abab) [0; 0; 1; 1] <> r0 /\
  tens Qc_fld (spatial_example Cluster n_t2) [0; 1; 0; 0] <> r0.
Proof. repeat split; intros H; apply (f_equal this) in H; vm_compute in H; discriminate H. Qed.
