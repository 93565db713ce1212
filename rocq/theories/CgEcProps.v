(** External corrections of the singles and doubles by triples and quadruples in an active space. *)
From Coq Require Import List Qcanon ZArith.
From Verif Require Import Base Alg ArrModel CgModel CgSpec CgFormSpec CgNames CgTables2 CgRelSpec CgExpSpec CgEcSpec CgEc CgEcEx.
From Verif Require Import Cg_GecCC Cg_UecCC Cg_RecCC Cg_GCCSDTQ Cg_GCCSD.
Import ListNotations.
Local Open Scope nat_scope.
Local Open Scope list_scope.

(** GCCSDTQ.update_amps with triples and quadruples that are zero outside the active space returns the singles and doubles of GCCSD.update_amps plus
    the blocks returned by GecCC.update_amps_external and GecCC.update_amps_mixed, placed at the active orbitals: nothing is missing from the
    corrections and nothing is counted twice. *)
Theorem C84_corrections_exact : exact_corrections.
Proof. exact exact_corrections_ok. Qed.
Print Assumptions C84_corrections_exact.

(** The spin blocks of the corrections of GecCC are those of UecCC, for amplitudes divided by n_alpha! n_beta!. *)
Theorem C84_unrestricted_corrections :
  corrections_agree u_tensors u_symmetries (u_active stored_unrestricted) UecCC_update_amps_external active_spin_split g_active_spins GecCC_update_amps_external g_results /\
  corrections_agree u_tensors u_symmetries (u_active stored_unrestricted) UecCC_update_amps_mixed active_spin_split g_active_spins GecCC_update_amps_mixed g_results.
Proof. exact ug_ok. Qed.
Print Assumptions C84_unrestricted_corrections.

(** For closed shells the corrections of UecCC are those of RecCC. *)
Theorem C84_restricted_corrections :
  corrections_agree r_tensors r_symmetries r_active RecCC_update_amps_external active_closed_split u_active_closed UecCC_update_amps_external u_closed_results /\
  corrections_agree r_tensors r_symmetries r_active RecCC_update_amps_mixed active_closed_split u_active_closed UecCC_update_amps_mixed u_closed_results.
Proof. exact ru_ok. Qed.
Print Assumptions C84_restricted_corrections.

(** UecCC.convert_c3_to_t3 returns amplitudes that are not divided (C81); ext/fci.py divides them by n_alpha! n_beta! (C82) with the remark that
    this is probably a matter of convention.  The division is needed: with undivided amplitudes the correction of the singles by the block abaaba is twice
    what it has to be, sum_{jb kc} (jb|kc) t_{ikj}^{acb}. *)
Theorem C84_division_needed : forall (F : fld) sz, characteristic_zero F -> forall method path, path_ok path ->
  forall eB : env F, symmetric sz u_symmetries u_tensors eB ->
  forall e1 e2, called_with sz eB (one_block (own_unrestricted Cluster)) UecCC_update_amps_external e1 -> called_with sz eB (one_block stored_unrestricted) UecCC_update_amps_external e2 ->
  exists r1 r2, run method path sz UecCC_update_amps_external e1 = Ok r1 /\ run method path sz UecCC_update_amps_external e2 = Ok r2 /\
    let all := together [eB; results F (p_out UecCC_update_amps_external) r1; results F (p_out UecCC_update_amps_external) r2] in
    forall idx, inb (map sz [10; 11]) idx ->
      value sz all [100; 110] [mono 1 1 [(nm 1 n_t1new'aa'OV, [100; 110])]] idx = value sz all [100; 110] (singles_formula 2) idx /\
      value sz all [100; 110] [mono 1 1 [(nm 2 n_t1new'aa'OV, [100; 110])]] idx = value sz all [100; 110] (singles_formula 1) idx.
Proof. exact undivided_ok. Qed.
Print Assumptions C84_division_needed.

(** Arguments as described by the tables exist for all given tensors. *)
Theorem C84_arguments_exist : forall p, In p ec_functions -> forall split T (F : fld) sz (eB : env F), splits sz split ->
  exists e, args_ok sz (p_in p) e /\ forall x cs, In (x, cs) (p_in p) -> given_by sz split T eB x cs (tens F (e x)).
Proof. exact ec_arguments. Qed.
Print Assumptions C84_arguments_exist.

(** Tensors with the required symmetries, all orbitals being active; triples and corrections that are not zero. *)
Example C84_example : symmetric ec_sz g_symmetries g_tensors g_example /\
  (symmetric ec_spin_sz u_symmetries u_tensors u_example /\ splits ec_spin_sz active_spin_split) /\
  (symmetric ec_closed_sz r_symmetries r_tensors r_example /\ splits ec_closed_sz active_closed_split) /\
  tens Qc_fld (g_example n_t3) [0; 1; 2; 0; 1; 2] <> r0 /\ tens Qc_fld (r_example n_t3) [0; 0; 1; 0; 0; 1] <> r0 /\
  value (F := Qc_fld) ec_spin_sz (together [u_example]) [100; 110] (singles_formula 1) [0; 0] <> r0.
Proof. exact (conj g_example_symmetric (conj (conj u_example_symmetric ec_spin_splits) (conj (conj r_example_symmetric ec_closed_splits) ec_nonzero))). Qed.
Print Assumptions C84_example.
