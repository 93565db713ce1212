(** Agreement of the generated equations for restricted, unrestricted and general calculations. *)
From Coq Require Import String.
From Verif Require Import Base Alg ArrModel EinsumModel CgModel CgSpec CgFormSpec CgNames CgTables CgPairs CgCompare CgAgree CgAgreeEx.
From Verif Require Import Cg_RCCSD_S_1_1 Cg_UCCSD_S_1_1 Cg_RCCSD Cg_UCCSD Cg_GCCSD.
Local Open Scope string_scope. Local Open Scope list_scope. Local Open Scope nat_scope.

(** Closed shells.  Take any Fock matrix, integrals (with the symmetries of real orbitals) and amplitudes over
    spatial orbitals, [eB].  Call a restricted function with them, and the corresponding unrestricted function
    with the spin blocks that table [closed_shell] assigns to them.  Both succeed, and the results of the
    unrestricted call are those that table [closed_shell_results] gives in terms of the results of the
    restricted call: the same energy, and the spin blocks of the same residuals. *)
Theorem C63_unrestricted_reduces_to_restricted : forall name p q, In (name, (p, q)) restricted_unrestricted ->
  forall (F : fld) sz, characteristic_zero F -> splits sz closed_split ->
  forall method1 method2 path1 path2, path_ok path1 -> path_ok path2 ->
  forall eB e1 e2 : env F, symmetric sz spatial_symmetries spatial eB ->
  args_ok sz (p_in p) e1 -> (forall x cs, In (x, cs) (p_in p) -> given_by sz id_split restricted eB x cs (tens F (e1 x))) ->
  args_ok sz (p_in q) e2 -> (forall x cs, In (x, cs) (p_in q) -> given_by sz closed_split closed_shell eB x cs (tens F (e2 x))) ->
  exists r1 r2, run method1 path1 sz p e1 = Ok r1 /\ run method2 path2 sz q e2 = Ok r2 /\
    forall k x cs, nth_error (p_out q) k = Some (x, cs) -> given_by sz closed_split closed_shell_results (results F (p_out p) r1) x cs (entry F r2 k).
Proof. exact closed_shell_agree. Qed.
Print Assumptions C63_unrestricted_reduces_to_restricted.

(** The same for the functions some of whose literals carry rounding errors of the code generator (such as
    2.00000000000002), once these are removed.  Missing: a bound on the effect of the errors. *)
Theorem C63_unrestricted_reduces_to_restricted_rounded_partial : forall name p q, In (name, (p, q)) restricted_unrestricted_rounded ->
  forall (F : fld) sz, characteristic_zero F -> splits sz closed_split ->
  forall method1 method2 path1 path2, path_ok path1 -> path_ok path2 ->
  forall eB e1 e2 : env F, symmetric sz spatial_symmetries spatial eB ->
  args_ok sz (p_in p) e1 -> (forall x cs, In (x, cs) (p_in p) -> given_by sz id_split restricted eB x cs (tens F (e1 x))) ->
  args_ok sz (p_in q) e2 -> (forall x cs, In (x, cs) (p_in q) -> given_by sz closed_split closed_shell eB x cs (tens F (e2 x))) ->
  exists r1 r2, run method1 path1 sz (rounded p) e1 = Ok r1 /\ run method2 path2 sz (rounded q) e2 = Ok r2 /\
    forall k x cs, nth_error (p_out q) k = Some (x, cs) -> given_by sz closed_split closed_shell_results (results F (p_out p) r1) x cs (entry F r2 k).
Proof. exact closed_shell_agree_rounded. Qed.
Print Assumptions C63_unrestricted_reduces_to_restricted_rounded_partial.

(** One function breaks the rule: the singles residual of [RCCSD_S_1_1.update_amps] is twice that of
    [UCCSD_S_1_1.update_amps].  With a Fock matrix and nothing else they are 2 f and f. *)
Theorem C63_rccsd_s_1_1_singles_refuted : forall (F : fld) sz, characteristic_zero F -> splits sz closed_split ->
  forall method1 method2 path1 path2, path_ok path1 -> path_ok path2 ->
  forall eB e1 e2 : env F, symmetric sz spatial_symmetries spatial eB ->
  args_ok sz (p_in RCCSD_S_1_1_update_amps) e1 ->
  (forall x cs, In (x, cs) (p_in RCCSD_S_1_1_update_amps) -> given_by sz id_split (only_fock restricted) eB x cs (tens F (e1 x))) ->
  args_ok sz (p_in UCCSD_S_1_1_update_amps) e2 ->
  (forall x cs, In (x, cs) (p_in UCCSD_S_1_1_update_amps) -> given_by sz closed_split (only_fock closed_shell) eB x cs (tens F (e2 x))) ->
  exists r1 r2, run method1 path1 sz RCCSD_S_1_1_update_amps e1 = Ok r1 /\ run method2 path2 sz UCCSD_S_1_1_update_amps e2 = Ok r2 /\
    nth_error (p_out RCCSD_S_1_1_update_amps) 0 = Some (n_t1new, [0; 1]) /\ nth_error (p_out UCCSD_S_1_1_update_amps) 0 = Some (n_t1new'aa, [4; 5]) /\
    forall i a, i < sz 0 -> a < sz 1 ->
      entry F r1 0 [i; a] = radd (tens F (eB n_f'ov) [i; a]) (tens F (eB n_f'ov) [i; a]) /\ entry F r2 0 [i; a] = tens F (eB n_f'ov) [i; a].
Proof. exact s_1_1_singles. Qed.
Print Assumptions C63_rccsd_s_1_1_singles_refuted.

(** Arguments as required exist for every [eB] and all numbers of orbitals. *)
Theorem C63_arguments_exist : forall name p q, In (name, (p, q)) (restricted_unrestricted ++ restricted_unrestricted_rounded) ->
  forall (F : fld) sz (eB : env F), splits sz closed_split ->
  exists e1 e2, args_ok sz (p_in p) e1 /\ (forall x cs, In (x, cs) (p_in p) -> given_by sz id_split restricted eB x cs (tens F (e1 x))) /\
    args_ok sz (p_in q) e2 /\ (forall x cs, In (x, cs) (p_in q) -> given_by sz closed_split closed_shell eB x cs (tens F (e2 x))).
Proof. exact closed_shell_arguments. Qed.
Print Assumptions C63_arguments_exist.

(** Two occupied orbitals and one virtual orbital. *)
Example C63_example : In ("CCSD.update_amps", (RCCSD_update_amps, UCCSD_update_amps)) restricted_unrestricted /\
  characteristic_zero Qc_fld /\ splits closed_sz closed_split /\
  symmetric closed_sz spatial_symmetries spatial (ex_basis closed_sz spatial_symmetries spatial) /\
  tens Qc_fld (ex_basis closed_sz spatial_symmetries spatial n_t2) [0; 1; 0; 0] <> r0.
Proof.
  split; [unfold restricted_unrestricted; cbn; tauto|]. split; [exact Qc_characteristic_zero|]. split; [exact closed_splits|].
  split; [exact closed_symmetric|apply ex_nonzero].
Qed.

(** Spin orbitals.  Take any Fock matrices, integrals and amplitudes of an unrestricted calculation, [eB].  Call
    an unrestricted function with them, and the corresponding general function with the spin-orbital tensors that
    table [spin_orbital] assigns to them (antisymmetrised integrals, antisymmetric amplitudes).  Both succeed, and
    the results agree: the same energy, and every block of the general residuals is, up to the sign of the
    permutation, the unrestricted residual, or zero if it does not conserve spin. *)
Theorem C64_general_reduces_to_unrestricted : forall name p q, In (name, (p, q)) unrestricted_general ->
  forall (F : fld) sz, characteristic_zero F -> splits sz spin_split ->
  forall method1 method2 path1 path2, path_ok path1 -> path_ok path2 ->
  forall eB e1 e2 : env F, symmetric sz spin_blocks_symmetries spin_blocks eB ->
  args_ok sz (p_in p) e1 -> (forall x cs, In (x, cs) (p_in p) -> given_by sz id_split unrestricted eB x cs (tens F (e1 x))) ->
  args_ok sz (p_in q) e2 -> (forall x cs, In (x, cs) (p_in q) -> given_by sz spin_split spin_orbital eB x cs (tens F (e2 x))) ->
  exists r1 r2, run method1 path1 sz p e1 = Ok r1 /\ run method2 path2 sz q e2 = Ok r2 /\
    forall k x cs, nth_error (p_out q) k = Some (x, cs) -> given_by sz spin_split spin_orbital_results (results F (p_out p) r1) x cs (entry F r2 k).
Proof. exact spin_orbital_agree. Qed.
Print Assumptions C64_general_reduces_to_unrestricted.

(** The same with the rounding errors of literals removed.  Missing: a bound on their effect. *)
Theorem C64_general_reduces_to_unrestricted_rounded_partial : forall name p q, In (name, (p, q)) unrestricted_general_rounded ->
  forall (F : fld) sz, characteristic_zero F -> splits sz spin_split ->
  forall method1 method2 path1 path2, path_ok path1 -> path_ok path2 ->
  forall eB e1 e2 : env F, symmetric sz spin_blocks_symmetries spin_blocks eB ->
  args_ok sz (p_in p) e1 -> (forall x cs, In (x, cs) (p_in p) -> given_by sz id_split unrestricted eB x cs (tens F (e1 x))) ->
  args_ok sz (p_in q) e2 -> (forall x cs, In (x, cs) (p_in q) -> given_by sz spin_split spin_orbital eB x cs (tens F (e2 x))) ->
  exists r1 r2, run method1 path1 sz (rounded p) e1 = Ok r1 /\ run method2 path2 sz (rounded q) e2 = Ok r2 /\
    forall k x cs, nth_error (p_out q) k = Some (x, cs) -> given_by sz spin_split spin_orbital_results (results F (p_out p) r1) x cs (entry F r2 k).
Proof. exact spin_orbital_agree_rounded. Qed.
Print Assumptions C64_general_reduces_to_unrestricted_rounded_partial.

(** Arguments as required exist for every [eB] and all numbers of orbitals. *)
Theorem C64_arguments_exist : forall name p q, In (name, (p, q)) (unrestricted_general ++ unrestricted_general_rounded) ->
  forall (F : fld) sz (eB : env F), splits sz spin_split ->
  exists e1 e2, args_ok sz (p_in p) e1 /\ (forall x cs, In (x, cs) (p_in p) -> given_by sz id_split unrestricted eB x cs (tens F (e1 x))) /\
    args_ok sz (p_in q) e2 /\ (forall x cs, In (x, cs) (p_in q) -> given_by sz spin_split spin_orbital eB x cs (tens F (e2 x))).
Proof. exact spin_orbital_arguments. Qed.
Print Assumptions C64_arguments_exist.

(** Two alpha electrons and one beta electron, two virtual orbitals of each spin. *)
Example C64_example : In ("CCSD.update_amps", (UCCSD_update_amps, GCCSD_update_amps)) unrestricted_general /\
  characteristic_zero Qc_fld /\ splits spin_sz spin_split /\
  symmetric spin_sz spin_blocks_symmetries spin_blocks (ex_basis spin_sz spin_blocks_symmetries spin_blocks) /\
  tens Qc_fld (ex_basis spin_sz spin_blocks_symmetries spin_blocks n_t2'aaaa) [0; 1; 0; 1] <> r0 /\
  tens Qc_fld (ex_basis spin_sz spin_blocks_symmetries spin_blocks n_t2'abab) [0; 0; 0; 1] <> r0.
Proof.
  split; [unfold unrestricted_general; cbn; tauto|]. split; [exact Qc_characteristic_zero|]. split; [exact spin_splits|].
  split; [exact spin_symmetric|apply ex_nonzero].
Qed.
