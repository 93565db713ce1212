(** Size-extensivity of the generated functions. *)
From Coq Require Import List String ZArith.
From Verif Require Import Base Alg ArrModel EinsumModel CgModel CgSpec CgFormSpec CgProofs CgPoly CgCompare CgCompareProofs CgBuild CgRename.
From Verif Require Import CgNames CgTables CgTables2 CgRelSpec CgRel CgRelProofs CgPartSpec CgPart CgPartPairs CgAgree CgAgree2.
Import ListNotations.
Local Open Scope nat_scope.

Lemma all_extensive_R : forallb (fun x => extensive spatial spatial_symmetries restricted same_results_R (snd x)) extensive_R = true.
Proof. vm_compute. reflexivity. Qed.
Lemma all_extensive_U : forallb (fun x => extensive spin_blocks spin_blocks_symmetries unrestricted same_results_U (snd x)) extensive_U = true.
Proof. vm_compute. reflexivity. Qed.
Lemma all_extensive_G : forallb (fun x => extensive general_basis general_basis_symmetries general same_results_R (snd x)) extensive_G = true.
Proof. vm_compute. reflexivity. Qed.
Lemma extensive_agree_R name p : In (name, p) extensive_R -> size_extensive spatial spatial_symmetries restricted same_results_R p.
Proof. intros H. unfold size_extensive. apply extensive_sound. pose proof all_extensive_R as A. rewrite forallb_forall in A. apply (A _ H). Qed.
Lemma extensive_agree_U name p : In (name, p) extensive_U -> size_extensive spin_blocks spin_blocks_symmetries unrestricted same_results_U p.
Proof. intros H. unfold size_extensive. apply extensive_sound. pose proof all_extensive_U as A. rewrite forallb_forall in A. apply (A _ H). Qed.
Lemma extensive_agree_G name p : In (name, p) extensive_G -> size_extensive general_basis general_basis_symmetries general same_results_R p.
Proof. intros H. unfold size_extensive. apply extensive_sound. pose proof all_extensive_G as A. rewrite forallb_forall in A. apply (A _ H). Qed.
Lemma extensive_names : forallb (fun x => names_ok (snd x)) (extensive_R ++ extensive_U ++ extensive_G) = true.
Proof. vm_compute. reflexivity. Qed.
Lemma extensive_arguments name p : In (name, p) (extensive_R ++ extensive_U ++ extensive_G) ->
  forall T (F : fld) sz (eB : env F), splits sz two_parts -> exists e1 e2 e,
    args_ok (fun c => sz (part false c)) (p_in p) e1 /\ (forall x cs, In (x, cs) (p_in p) -> given_by sz id_blocks (part_table false T) eB x (map (part false) cs) (tens F (e1 x))) /\
    args_ok (fun c => sz (part true c)) (p_in p) e2 /\ (forall x cs, In (x, cs) (p_in p) -> given_by sz id_blocks (part_table true T) eB x (map (part true) cs) (tens F (e2 x))) /\
    args_ok sz (p_in p) e /\ (forall x cs, In (x, cs) (p_in p) -> given_by sz two_parts (whole_table T) eB x cs (tens F (e x))).
Proof.
  intros H T F sz eB Hs. pose proof extensive_names as A. rewrite forallb_forall in A. specialize (A _ H).
  destruct (@part_arguments p (part_table false T) F sz eB false A) as (e1 & A1 & G1).
  destruct (@part_arguments p (part_table true T) F sz eB true A) as (e2 & A2 & G2).
  destruct (@whole_arguments p (whole_table T) F sz eB Hs A) as (e & A3 & G3). exists e1, e2, e. repeat split; assumption.
Qed.
