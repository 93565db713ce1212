(** The Lambda equations are the gradient of the Lagrangian; where they are not. *)
From Coq Require Import List String ZArith.
From Verif Require Import Base Alg ArrModel EinsumModel CgModel CgSpec CgFormSpec CgProofs CgPoly CgCompare CgCompareProofs CgBuild.
From Verif Require Import CgNames CgTables CgTables2 CgRelSpec CgRel CgRelProofs CgLagSpec CgAgree CgAgree2.
From Verif Require Import Cg_GCCSD Cg_GCCD Cg_GCC2 Cg_GCCSD_S_1_1.
Import ListNotations.
Local Open Scope string_scope. Local Open Scope list_scope. Local Open Scope nat_scope.

(** Name, whether there are single excitations; energy, update_amps, update_lams. *)
Definition variational : list (string * bool * (prog * prog * prog)) :=
  [("GCCD", false, (GCCD_energy, GCCD_update_amps, GCCD_update_lams));
   ("GCCSD", true, (GCCSD_energy, GCCSD_update_amps, GCCSD_update_lams))].
Lemma all_variational : forallb (fun x => match x with (_, s, (p1, p2, p3)) =>
  slope_ok directed_basis directed_symmetries n_epsilon [(displaced, p1); (displaced, p2); (general, p3)] (lagrangian s) (along_direction s) end) variational = true.
Proof. vm_compute. reflexivity. Qed.
Lemma epsilon_fresh : fresh_symmetries n_epsilon directed_symmetries = true /\ fresh_table n_epsilon general = true.
Proof. split; vm_compute; reflexivity. Qed.
Lemma lambda_gradient name s p1 p2 p3 : In (name, s, (p1, p2, p3)) variational ->
  forall (F : fld) sz, characteristic_zero F -> forall method path, path_ok path ->
  forall eB : env F, symmetric sz directed_symmetries directed_basis eB ->
  forall e3, called_with sz eB general p3 e3 ->
  exists r3, run method path sz p3 e3 = Ok r3 /\ exists c0 l,
    forall v e1 e2, called_with sz (with_number eB n_epsilon v) displaced p1 e1 -> called_with sz (with_number eB n_epsilon v) displaced p2 e2 ->
    exists r1 r2, run method path sz p1 e1 = Ok r1 /\ run method path sz p2 e2 = Ok r2 /\
      let all := together [with_number eB n_epsilon v; results F (p_out p1) r1; results F (p_out p2) r2; results F (p_out p3) r3] in
      value sz all [] (lagrangian s) [] = radd (radd c0 (rmul v (value sz all [] (along_direction s) []))) (rmul (rmul v v) (polynomial F l v)).
Proof.
  intros H. apply slope_sound; [|apply epsilon_fresh|apply epsilon_fresh].
  pose proof all_variational as A. rewrite forallb_forall in A. apply (A _ H).
Qed.
Lemma lambda_names : forallb (fun x => match x with (_, _, (p1, p2, p3)) => forallb names_ok [p1; p2; p3] end) variational = true.
Proof. vm_compute. reflexivity. Qed.
Lemma lambda_arguments name s p1 p2 p3 p : In (name, s, (p1, p2, p3)) variational -> In p [p1; p2; p3] ->
  forall T (F : fld) sz (eB : env F), exists e, called_with sz eB T p e.
Proof.
  intros H Hp T F sz eB. apply (@arguments_exist_one p T F sz eB). pose proof lambda_names as A. rewrite forallb_forall in A.
  specialize (A _ H). cbv beta iota in A. rewrite forallb_forall in A. apply (A p Hp).
Qed.

(** Where they are not: tables of arguments and results. *)
Definition computed (p : prog) (T Tout : table) : bool := computes general_basis general_basis_symmetries id_split T p Tout.
Lemma cc2_zero : computed GCC2_energy (only [n_v'oooo; n_t2; n_l2] general) all_zero && computed GCC2_update_amps (only [n_v'oooo; n_t2; n_l2] general) all_zero
  && computed GCC2_update_lams (only [n_v'oooo; n_l2] general) half_oooo = true.
Proof. vm_compute. reflexivity. Qed.
Lemma boson_factor : computed GCCSD_S_1_1_energy (only [n_f'ov; n_f'vo; n_u11; n_ls1] general) all_zero && computed GCCSD_S_1_1_update_amps (only [n_f'ov; n_f'vo; n_u11; n_ls1] general) boson_residual
  && computed GCCSD_S_1_1_update_lams (only [n_f'ov; n_f'vo; n_ls1] general) twice_product = true.
Proof. vm_compute. reflexivity. Qed.
Lemma computed_returns p T Tout : computed p T Tout = true -> forall (F : fld) sz, characteristic_zero F ->
  forall eB : env F, symmetric sz general_basis_symmetries general_basis eB -> returns F sz eB p T Tout.
Proof.
  intros H F sz H0 eB HS m pa P e [A G]. apply (@computes_sound general_basis general_basis_symmetries id_split T p Tout H F sz H0 (splits_id sz) m pa P eB e HS A G).
Qed.
Lemma cc2_not_gradient : forall (F : fld) sz, characteristic_zero F ->
  forall eB : env F, symmetric sz general_basis_symmetries general_basis eB ->
  returns F sz eB GCC2_energy (only [n_v'oooo; n_t2; n_l2] general) all_zero /\
  returns F sz eB GCC2_update_amps (only [n_v'oooo; n_t2; n_l2] general) all_zero /\
  returns F sz eB GCC2_update_lams (only [n_v'oooo; n_l2] general) half_oooo.
Proof.
  intros F sz H0 eB HS. pose proof cc2_zero as C. apply andb_prop in C as [C C3]. apply andb_prop in C as [C1 C2].
  split; [|split]; apply computed_returns; assumption.
Qed.
Lemma boson_not_gradient : forall (F : fld) sz, characteristic_zero F ->
  forall eB : env F, symmetric sz general_basis_symmetries general_basis eB ->
  returns F sz eB GCCSD_S_1_1_energy (only [n_f'ov; n_f'vo; n_u11; n_ls1] general) all_zero /\
  returns F sz eB GCCSD_S_1_1_update_amps (only [n_f'ov; n_f'vo; n_u11; n_ls1] general) boson_residual /\
  returns F sz eB GCCSD_S_1_1_update_lams (only [n_f'ov; n_f'vo; n_ls1] general) twice_product.
Proof.
  intros F sz H0 eB HS. pose proof boson_factor as C. apply andb_prop in C as [C C3]. apply andb_prop in C as [C1 C2].
  split; [|split]; apply computed_returns; assumption.
Qed.
