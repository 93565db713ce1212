(** Size-extensivity of the generated equations. *)
From Coq Require Import List String.
From Verif Require Import Base Alg ArrModel EinsumModel CgModel CgSpec CgFormSpec CgNames CgTables CgTables2 CgRelSpec CgPartSpec CgPartPairs CgPartThms CgAgreeEx CgPartEx.
From Verif Require Import Cg_RCCSD Cg_GCCSD.
Import ListNotations.
Local Open Scope string_scope. Local Open Scope list_scope. Local Open Scope nat_scope.

(** For a system of two parts which do not interact: energies are the sums of those of the parts, and amplitude
    residuals have the blocks of the parts and no others. *)
Theorem C70_size_extensive_restricted : forall name p, In (name, p) extensive_R -> size_extensive spatial spatial_symmetries restricted same_results_R p.
Proof. exact extensive_agree_R. Qed.
Print Assumptions C70_size_extensive_restricted.
Theorem C70_size_extensive_unrestricted : forall name p, In (name, p) extensive_U -> size_extensive spin_blocks spin_blocks_symmetries unrestricted same_results_U p.
Proof. exact extensive_agree_U. Qed.
Print Assumptions C70_size_extensive_unrestricted.
Theorem C70_size_extensive_general : forall name p, In (name, p) extensive_G -> size_extensive general_basis general_basis_symmetries general same_results_R p.
Proof. exact extensive_agree_G. Qed.
Print Assumptions C70_size_extensive_general.

(** There are such arguments for all tensors of the parts. *)
Theorem C70_arguments_exist : forall name p, In (name, p) (extensive_R ++ extensive_U ++ extensive_G) ->
  forall T (F : fld) sz (eB : env F), splits sz two_parts -> exists e1 e2 e,
    args_ok (fun c => sz (part false c)) (p_in p) e1 /\ (forall x cs, In (x, cs) (p_in p) -> given_by sz id_blocks (part_table false T) eB x (map (part false) cs) (tens F (e1 x))) /\
    args_ok (fun c => sz (part true c)) (p_in p) e2 /\ (forall x cs, In (x, cs) (p_in p) -> given_by sz id_blocks (part_table true T) eB x (map (part true) cs) (tens F (e2 x))) /\
    args_ok sz (p_in p) e /\ (forall x cs, In (x, cs) (p_in p) -> given_by sz two_parts (whole_table T) eB x cs (tens F (e x))).
Proof. exact extensive_arguments. Qed.
Print Assumptions C70_arguments_exist.

Example C70_example : In ("RCCSD.update_amps", RCCSD_update_amps) extensive_R /\ In ("GCCSD.update_amps", GCCSD_update_amps) extensive_G /\
  characteristic_zero Qc_fld /\ splits parts_sz two_parts /\
  symmetric parts_sz (both_symmetries spatial_symmetries) (both spatial) (ex_basis parts_sz (both_symmetries spatial_symmetries) (both spatial)) /\
  symmetric parts_sz (both_symmetries general_basis_symmetries) (both general_basis) (ex_basis parts_sz (both_symmetries general_basis_symmetries) (both general_basis)) /\
  tens Qc_fld (ex_basis parts_sz (both_symmetries spatial_symmetries) (both spatial) (part_name false n_t2)) [0; 1; 1; 0] <> r0 /\
  tens Qc_fld (ex_basis parts_sz (both_symmetries spatial_symmetries) (both spatial) (part_name true n_t2)) [0; 0; 0; 0] <> r0.
Proof.
  split; [unfold extensive_R; cbn; tauto|]. split; [unfold extensive_G; cbn; tauto|]. split; [exact Qc_characteristic_zero|]. split; [exact parts_split|].
  split; [exact parts_symmetric_R|]. split; [exact parts_symmetric_G|exact parts_nonzero].
Qed.
