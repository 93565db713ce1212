(** C82: cluster amplitudes, coefficient amplitudes and CI vectors. *)
From Coq Require Import ZArith String.
From Verif Require Import Base Alg ArrModel PermModel PermSpec TensorModel TensorSpec SpaceModel SpaceSpec AnsatzModel VecModel VecSpec CcModel EinsumModel EinPathModel CgModel CgSpec CgFormSpec CgAgreeEx
  CgRelSpec CgLagSpec CgPairs CgExpSpec ExtModel FciModel FciSpec FciEx FciConvModel FciConvSpec FciConv5 FciConv7 FciConvEx.
Local Open Scope list_scope.
Local Open Scope nat_scope.

(** All unrestricted cluster amplitudes up to the order [m], antisymmetric among the indices of equal kind and spin, have coefficient amplitudes
    with the same properties, and converting these back returns every block of the amplitudes.  [path] is the order of contractions that
    numpy.einsum_path chooses. *)
Theorem C82_amplitudes_back : forall (F : fld) method path sz (sa sb : space) m (amps : dict pystr (tval F)),
  characteristic_zero F -> path_ok path -> spin_sizes sa sb sz -> 1 <= m <= 4 -> cluster_amplitudes sa sb m amps ->
  exists camps amps', u_amplitudes_to_coefficients F method path sz amps m = Ok camps /\ coefficient_amplitudes sa sb m camps /\
    u_coefficients_to_amplitudes F method path sz camps m = Ok amps' /\
    forall n comb, 1 <= n <= m -> In comb (generate_spin_combinations n false true) -> cluster amps' n comb = cluster amps n comb.
Proof. exact (fun F method path sz sa sb m amps H0 HP HZ Hm HA => @u_amplitudes_back F method path sz H0 HP sa sb HZ m amps Hm HA). Qed.
Print Assumptions C82_amplitudes_back.
(** Converting any coefficient amplitudes to cluster amplitudes and these back returns every block of the coefficients. *)
Theorem C82_coefficients_back : forall (F : fld) method path sz (sa sb : space) m (camps : dict pystr (tval F)),
  characteristic_zero F -> path_ok path -> spin_sizes sa sb sz -> 1 <= m <= 4 -> coefficient_amplitudes sa sb m camps ->
  exists amps camps', u_coefficients_to_amplitudes F method path sz camps m = Ok amps /\ u_amplitudes_to_coefficients F method path sz amps m = Ok camps' /\
    forall n comb, 1 <= n <= m -> In comb (generate_spin_combinations n false true) -> coefficient camps' n comb = coefficient camps n comb.
Proof. exact (fun F method path sz sa sb m camps H0 HP HZ Hm HA => @u_coefficients_back F method path sz H0 HP sa sb HZ m camps Hm HA). Qed.
Print Assumptions C82_coefficients_back.
(** Converting cluster amplitudes to a CI vector, normalised or not, and the vector to cluster amplitudes returns every block, with as many active
    occupied and virtual orbitals of both spins, or up to double excitations.  [tn] is the table of addresses and [norm] the norm of a vector.
    Missing for the full property: different numbers of orbitals at orders 3 and 4, where C50 refutes it. *)
Theorem C82_vector_back_partial : forall (F : fld) method path sz tn norm (sa sb : space) m (amps : dict pystr (tval F)) (normalise : bool),
  characteristic_zero F -> path_ok path -> spin_sizes sa sb sz -> addresses_ok tn -> accepted sa -> accepted sb ->
  1 <= m <= 4 -> cluster_amplitudes sa sb m amps -> naocc sa = naocc sb /\ navir sa = navir sb \/ m <= 2 ->
  (normalise = true -> forall x, aget r0 x [0; 0] = r1 -> norm x <> r0) ->
  exists ci amps', u_amplitudes_to_ci F method path sz tn norm amps m normalise = Ok ci /\ u_ci_to_amplitudes F method path sz tn sa sb ci m = Ok amps' /\
    forall n comb, 1 <= n <= m -> In comb (generate_spin_combinations n false true) -> cluster amps' n comb = cluster amps n comb.
Proof.
  exact (fun F method path sz tn norm sa sb m amps normalise H0 HP HZ HT Ha Hb Hm HA HE HN => @u_vector_back F method path sz H0 HP sa sb HZ tn HT Ha Hb norm m amps normalise Hm HA HE HN).
Qed.
Print Assumptions C82_vector_back_partial.
Example C82_example : characteristic_zero Qc_fld /\ spin_sizes fci_c fci_c ones /\ addresses_ok ex_tn /\ accepted fci_c /\ cluster_amplitudes fci_c fci_c 2 ex2_tamps /\
  coefficient_amplitudes fci_c fci_c 2 ex2_camps.
Proof. exact (conj Qc_characteristic_zero (conj ones_sizes (conj ex_tn_ok (conj (proj2 (proj2 fci_accepted)) (conj ex2_tamps_ok ex2_ok))))). Qed.

(** Restricted amplitudes.  For all spatial excitations [eB], symmetric under permutations of the electrons, and the restricted amplitudes t1, t2, t3,
    t4 and t4a of their closed shell: converting them to a CI vector, normalised or not, and the vector to amplitudes returns every one of them. *)
Theorem C82_restricted_vector_back : forall (F : fld) method path sz tn norm (sp : space) (eB : env F) m (amps : dict pystr (tval F)) (normalise : bool),
  characteristic_zero F -> path_ok path -> closed_sizes sp sz -> addresses_ok tn -> accepted sp ->
  symmetric sz (spatial_symmetry Cluster) (spatial_tensors Cluster) eB -> 1 <= m <= 4 -> closed_shell_amplitudes sz eB m amps ->
  (normalise = true -> forall x, aget r0 x [0; 0] = r1 -> norm x <> r0) ->
  exists ci amps', r_amplitudes_to_ci F method path sz tn norm amps m normalise = Ok ci /\ r_ci_to_amplitudes F method path sz tn sp ci m = Ok amps' /\
    forall name p, In (name, p) (restricted_names m) -> dget pystr_eq_dec (str name) amps' = dget pystr_eq_dec (str name) amps.
Proof.
  exact (fun F method path sz tn norm sp eB m amps normalise H0 HP HZ HT Ha HS Hm HA HN => @r_vector_back F method path sz H0 HP eB HS sp HZ tn HT Ha norm m amps normalise Hm HA HN).
Qed.
Print Assumptions C82_restricted_vector_back.
(** All spatial excitations have such amplitudes. *)
Theorem C82_restricted_amplitudes_exist : forall (F : fld) sz (eB : env F) m, m <= 4 -> exists amps : dict pystr (tval F), closed_shell_amplitudes sz eB m amps.
Proof. exact (fun F sz eB m Hm => ex_intro _ (closed_amps sz eB) (@closed_amps_ok F sz eB m Hm)). Qed.
Print Assumptions C82_restricted_amplitudes_exist.
Example C82_restricted_example : closed_sizes fci_c ones /\ symmetric ones (spatial_symmetry Cluster) (spatial_tensors Cluster) ones_example /\
  closed_shell_amplitudes ones ones_example 4 (closed_amps ones ones_example) /\
  exists x, dget pystr_eq_dec (str "t2") (closed_amps ones ones_example) = Some (VArr x) /\ aget r0 x [0; 0; 0; 0] <> r0.
Proof. exact (conj ones_closed (conj ones_symmetric (conj (@closed_amps_ok Qc_fld ones ones_example 4 (le_n 4)) ones_nonzero))). Qed.
