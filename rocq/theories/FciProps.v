(** C50: amplitudes and CI vectors. *)
From Coq Require Import ZArith String.
From Verif Require Import Base Alg ArrModel PermModel PermSpec TensorModel TensorSpec SpaceModel SpaceSpec AnsatzModel VecModel VecSpec CcModel CcEx ExtModel FciModel FciSpec FciThms FciAgree FciEx.
Local Open Scope string_scope.
Local Open Scope list_scope.
Local Open Scope nat_scope.

(** Packing coefficient amplitudes into a CI vector, normalised or not, and reading the vector gives every block back, when both spins have
    as many active occupied and virtual orbitals.  [conv] is the conversion from cluster amplitudes, [tn] the table of addresses.
    Missing for the full property: different numbers of orbitals at orders 3 and 4, where it fails (below). *)
Theorem C50_roundtrip_partial : forall (F : fld) tn (sa sb : space) (m : nat) (camps amps : dict pystr (tval F)) conv norm (normalise : bool),
  addresses_ok tn -> no_two_torsion F -> accepted sa -> accepted sb -> 1 <= m <= 4 ->
  naocc sa = naocc sb -> navir sa = navir sb ->
  singles_sized sa sb amps -> conv amps = Ok camps -> coefficient_amplitudes sa sb m camps ->
  (normalise = true -> forall x, aget r0 x [0; 0] = r1 -> norm x <> r0) ->
  exists ci, u_to_ci F tn conv norm amps m normalise = Ok ci /\ (normalise = false -> aget r0 ci [0; 0] = r1) /\
  exists out, u_coefficients F tn sa sb ci m = Ok out /\
    forall n comb, 1 <= n <= m -> In comb (generate_spin_combinations n false true) -> coefficient out n comb = coefficient camps n comb.
Proof.
  exact (fun F tn sa sb m camps amps conv norm normalise Ht Hf Ha Hb Hm E1 E2 Hs Hc HC HN =>
    @roundtrip F tn Ht Hf sa sb Ha Hb m Hm camps HC (fun n comb Hn => @shapes_equal sa sb n comb E1 E2 (conj (proj1 Hn) (Nat.le_trans _ _ _ (proj2 Hn) (proj2 Hm)))) conv norm amps Hs Hc normalise HN).
Qed.
Print Assumptions C50_roundtrip_partial.

(** Up to double excitations this holds whatever the numbers of orbitals. *)
Theorem C50_roundtrip_doubles : forall (F : fld) tn (sa sb : space) (m : nat) (camps amps : dict pystr (tval F)) conv norm (normalise : bool),
  addresses_ok tn -> no_two_torsion F -> accepted sa -> accepted sb -> 1 <= m <= 2 ->
  singles_sized sa sb amps -> conv amps = Ok camps -> coefficient_amplitudes sa sb m camps ->
  (normalise = true -> forall x, aget r0 x [0; 0] = r1 -> norm x <> r0) ->
  exists ci, u_to_ci F tn conv norm amps m normalise = Ok ci /\ (normalise = false -> aget r0 ci [0; 0] = r1) /\
  exists out, u_coefficients F tn sa sb ci m = Ok out /\
    forall n comb, 1 <= n <= m -> In comb (generate_spin_combinations n false true) -> coefficient out n comb = coefficient camps n comb.
Proof.
  exact (fun F tn sa sb m camps amps conv norm normalise Ht Hf Ha Hb Hm Hs Hc HC HN =>
    @roundtrip F tn Ht Hf sa sb Ha Hb m (conj (proj1 Hm) (Nat.le_trans _ _ _ (proj2 Hm) (le_S _ _ (le_S _ _ (le_n 2))))) camps HC
      (fun n comb Hn => @shapes_small sa sb n comb (conj (proj1 Hn) (Nat.le_trans _ _ _ (proj2 Hn) (proj2 Hm)))) conv norm amps Hs Hc normalise HN).
Qed.
Print Assumptions C50_roundtrip_doubles.

Example C50_example : addresses_ok ex_tn /\ accepted fci_c /\ coefficient_amplitudes fci_c fci_c 2 ex2_camps /\
  singles_sized fci_c fci_c (ex_amps 1 1 1 1) /\ no_two_torsion Z_rng.
Proof.
  split; [exact ex_tn_ok|]. split; [exact (proj2 (proj2 fci_accepted))|]. split; [exact ex2_ok|]. split; [|intros a H; cbn in *; lia].
  eexists _, _, _. repeat (split; [reflexivity|]). reflexivity.
Qed.

(** With triple excitations and different numbers of alpha and beta orbitals a block comes back different: the extents are attached to the
    wrong axes. *)
Theorem C50_open_shell_triples_refuted : exists tn sa sb (camps amps : dict pystr (tval Qc_fld)) conv norm ci out,
  addresses_ok tn /\ accepted sa /\ accepted sb /\ singles_sized sa sb amps /\ conv amps = Ok camps /\ coefficient_amplitudes sa sb 3 camps /\
  u_to_ci Qc_fld tn conv norm amps 3 false = Ok ci /\ u_coefficients Qc_fld tn sa sb ci 3 = Ok out /\
  coefficient out 3 (str "abaaba") <> coefficient camps 3 (str "abaaba").
Proof.
  destruct ex_differs as (ci & out & E1 & E2 & N).
  exists ex_tn, fci_a, fci_b, (ex_camps fci_a fci_b 3), (ex_amps 2 2 1 3), (ex_conv fci_a fci_b 3), (fun _ => r1), ci, out.
  split; [exact ex_tn_ok|]. split; [exact (proj1 fci_accepted)|]. split; [exact (proj1 (proj2 fci_accepted))|]. split; [exact ex_singles|]. split; [reflexivity|].
  split; [exact (@ex_camps_ok fci_a fci_b 3 (le_S _ _ (le_n 3)))|]. split; [exact E1|]. split; [exact E2|exact N].
Qed.
Print Assumptions C50_open_shell_triples_refuted.

(** Reading a CI vector of a closed shell, the restricted blocks are blocks of the unrestricted result. *)
Theorem C50_restricted_agrees : forall (F : fld) tn (sp : space) (ci : arr F) (m : nat) (rc uc : dict pystr (tval F)),
  r_coefficients F tn sp ci m = Ok rc -> u_coefficients F tn sp sp ci m = Ok uc ->
  (exists x, dget pystr_eq_dec (str "c1") rc = Some (VArr x) /\ coefficient uc 1 (str "bb") = Some x) /\
  (2 <= m -> exists x, dget pystr_eq_dec (str "c2") rc = Some (VArr x) /\ coefficient uc 2 (str "abab") = Some x) /\
  (3 <= m -> exists x, dget pystr_eq_dec (str "c3") rc = Some (VArr x) /\ coefficient uc 3 (str "abaaba") = Some x) /\
  (4 <= m -> exists x, dget pystr_eq_dec (str "c4") rc = Some (VArr x) /\ coefficient uc 4 (str "abababab") = Some x).
Proof. exact agree. Qed.
Print Assumptions C50_restricted_agrees.

(** The second block of quadruples is the one with three alpha electrons, the beta electron moved to the second place. *)
Theorem C50_restricted_agrees_quadruples : forall (F : fld) tn (sp : space) (ci : arr F) (rc uc : dict pystr (tval F)),
  r_coefficients F tn sp ci 4 = Ok rc -> u_coefficients F tn sp sp ci 4 = Ok uc ->
  exists x y, dget pystr_eq_dec (str "c4a") rc = Some (VArr x) /\ coefficient uc 4 (str "aaabaaab") = Some y /\
    forall i0 i1 i2 i3 a0 a1 a2 a3, inb (shp x) [i0; i1; i2; i3; a0; a1; a2; a3] ->
      aget r0 x [i0; i1; i2; i3; a0; a1; a2; a3] = aget r0 y [i0; i2; i3; i1; a0; a2; a3; a1].
Proof. exact agree_4a. Qed.
Print Assumptions C50_restricted_agrees_quadruples.

Example C50_agrees_example : exists ci rc uc, r_coefficients Qc_fld ex_tn fci_c ci 4 = Ok rc /\ u_coefficients Qc_fld ex_tn fci_c fci_c ci 4 = Ok uc.
Proof. exists ex3_ci. destruct (ok_ex _ ex3_r) as (rc & E1). destruct (ok_ex _ ex3_u) as (uc & E2). exists rc, uc. split; assumption. Qed.
