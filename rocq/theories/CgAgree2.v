(** Density fitting, exchange of the spins, symmetries of residuals, textbook equations. *)
From Coq Require Import List String ZArith.
From Verif Require Import Base Alg ArrModel EinsumModel CgModel CgSpec CgFormSpec CgProofs CgPoly CgCompare CgCompareProofs CgBuild CgOwn CgRename.
From Verif Require Import CgNames CgTables CgTables2 CgTextbook CgPairs2 CgAgree.
From Verif Require Import Cg_GCCSD Cg_GCCD Cg_GLCCSD Cg_GLCCD Cg_GCC2 Cg_GMP2 Cg_GMP3 Cg_GQCISD.
Import ListNotations.
Local Open Scope string_scope. Local Open Scope list_scope. Local Open Scope nat_scope.

(** Density fitting. *)
Lemma all_fitted_R : forallb (fun x => compare spatial spatial_symmetries restricted (snd (snd x)) id_split (fitted ++ restricted) (fst (snd x)) same_results_R) fitted_restricted = true.
Proof. vm_compute. reflexivity. Qed.
Lemma all_fitted_U : forallb (fun x => compare spin_blocks spin_blocks_symmetries unrestricted (snd (snd x)) id_split (fitted_spin ++ unrestricted) (fst (snd x)) same_results_U) fitted_unrestricted = true.
Proof. vm_compute. reflexivity. Qed.
Lemma fitted_agree_R name p q : In (name, (p, q)) fitted_restricted ->
  forall (F : fld) sz, characteristic_zero F ->
  forall method1 method2 path1 path2, path_ok path1 -> path_ok path2 ->
  forall eB e1 e2 : env F, symmetric sz spatial_symmetries spatial eB ->
  args_ok sz (p_in q) e1 -> (forall x cs, In (x, cs) (p_in q) -> given_by sz id_split restricted eB x cs (tens F (e1 x))) ->
  args_ok sz (p_in p) e2 -> (forall x cs, In (x, cs) (p_in p) -> given_by sz id_split (fitted ++ restricted) eB x cs (tens F (e2 x))) ->
  exists r1 r2, run method1 path1 sz q e1 = Ok r1 /\ run method2 path2 sz p e2 = Ok r2 /\
    forall k x cs, nth_error (p_out p) k = Some (x, cs) -> given_by sz id_split same_results_R (results F (p_out q) r1) x cs (entry F r2 k).
Proof. intros H F sz H0. apply compare_sound; [|exact H0|apply splits_id]. pose proof all_fitted_R as A. rewrite forallb_forall in A. apply (A _ H). Qed.
Lemma fitted_agree_U name p q : In (name, (p, q)) fitted_unrestricted ->
  forall (F : fld) sz, characteristic_zero F ->
  forall method1 method2 path1 path2, path_ok path1 -> path_ok path2 ->
  forall eB e1 e2 : env F, symmetric sz spin_blocks_symmetries spin_blocks eB ->
  args_ok sz (p_in q) e1 -> (forall x cs, In (x, cs) (p_in q) -> given_by sz id_split unrestricted eB x cs (tens F (e1 x))) ->
  args_ok sz (p_in p) e2 -> (forall x cs, In (x, cs) (p_in p) -> given_by sz id_split (fitted_spin ++ unrestricted) eB x cs (tens F (e2 x))) ->
  exists r1 r2, run method1 path1 sz q e1 = Ok r1 /\ run method2 path2 sz p e2 = Ok r2 /\
    forall k x cs, nth_error (p_out p) k = Some (x, cs) -> given_by sz id_split same_results_U (results F (p_out q) r1) x cs (entry F r2 k).
Proof. intros H F sz H0. apply compare_sound; [|exact H0|apply splits_id]. pose proof all_fitted_U as A. rewrite forallb_forall in A. apply (A _ H). Qed.
Definition names_ok (p : prog) : bool := nodup_names (map fst (p_in p)).
Lemma fitted_names : forallb (fun x => names_ok (snd (snd x)) && names_ok (fst (snd x))) (fitted_restricted ++ fitted_unrestricted) = true.
Proof. vm_compute. reflexivity. Qed.
Lemma fitted_arguments_R name p q : In (name, (p, q)) fitted_restricted -> forall (F : fld) sz (eB : env F),
  exists e1 e2, args_ok sz (p_in q) e1 /\ (forall x cs, In (x, cs) (p_in q) -> given_by sz id_split restricted eB x cs (tens F (e1 x))) /\
    args_ok sz (p_in p) e2 /\ (forall x cs, In (x, cs) (p_in p) -> given_by sz id_split (fitted ++ restricted) eB x cs (tens F (e2 x))).
Proof.
  intros H F sz eB. apply arguments_exist_gen; [apply splits_id|]. pose proof fitted_names as A. rewrite forallb_forall in A.
  apply (A (name, (p, q))). apply in_or_app. left. exact H.
Qed.
Lemma fitted_arguments_U name p q : In (name, (p, q)) fitted_unrestricted -> forall (F : fld) sz (eB : env F),
  exists e1 e2, args_ok sz (p_in q) e1 /\ (forall x cs, In (x, cs) (p_in q) -> given_by sz id_split unrestricted eB x cs (tens F (e1 x))) /\
    args_ok sz (p_in p) e2 /\ (forall x cs, In (x, cs) (p_in p) -> given_by sz id_split (fitted_spin ++ unrestricted) eB x cs (tens F (e2 x))).
Proof.
  intros H F sz eB. apply arguments_exist_gen; [apply splits_id|]. pose proof fitted_names as A. rewrite forallb_forall in A.
  apply (A (name, (p, q))). apply in_or_app. right. exact H.
Qed.

(** Exchange of alpha and beta. *)
Lemma all_exchange : forallb (fun x => compare spin_blocks spin_blocks_symmetries unrestricted (snd x) id_split exchanged (ren exchange (snd x)) exchanged_results) unrestricted_functions = true.
Proof. vm_compute. reflexivity. Qed.
Lemma ren_of_kinds (F : fld) (rho : cls -> cls) sz cs (a : arr F) : of_kinds F (fun c => sz (rho c)) cs a <-> of_kinds F sz (map rho cs) a.
Proof. unfold of_kinds. rewrite map_map. reflexivity. Qed.
Lemma ren_args (F : fld) (rho : cls -> cls) sz p (e : env F) : args_ok (fun c => sz (rho c)) (p_in p) e <-> args_ok sz (p_in (ren rho p)) e.
Proof.
  split.
  - intros H x ds Hx. apply in_ren in Hx as (cs & Hx & ->). destruct (H x cs Hx) as (a & E & K). exists a. split; [exact E|exact (proj1 (ren_of_kinds F rho sz cs a) K)].
  - intros H x cs Hx. destruct (H x _ (@ren_in rho p x cs Hx)) as (a & E & K). exists a. split; [exact E|exact (proj2 (ren_of_kinds F rho sz cs a) K)].
Qed.
Lemma exchange_agree name p : In (name, p) unrestricted_functions ->
  forall (F : fld) sz, characteristic_zero F ->
  forall method1 method2 path1 path2, path_ok path1 -> path_ok path2 ->
  forall eB e1 e2 : env F, symmetric sz spin_blocks_symmetries spin_blocks eB ->
  args_ok sz (p_in p) e1 -> (forall x cs, In (x, cs) (p_in p) -> given_by sz id_split unrestricted eB x cs (tens F (e1 x))) ->
  args_ok (fun c => sz (exchange c)) (p_in p) e2 -> (forall x cs, In (x, cs) (p_in p) -> given_by sz id_split exchanged eB x (map exchange cs) (tens F (e2 x))) ->
  exists r1 r2, run method1 path1 sz p e1 = Ok r1 /\ run method2 path2 (fun c => sz (exchange c)) p e2 = Ok r2 /\
    forall k x cs, nth_error (p_out p) k = Some (x, cs) -> given_by sz id_split exchanged_results (results F (p_out p) r1) x (map exchange cs) (entry F r2 k).
Proof.
  intros H F sz H0 m1 m2 p1 p2 P1 P2 eB e1 e2 HS A1 G1 A2 G2.
  pose proof all_exchange as A. rewrite forallb_forall in A. specialize (A _ H). cbn [snd] in A.
  destruct (@compare_sound _ _ _ _ _ _ _ _ A F sz H0 (splits_id sz) m1 m2 p1 p2 P1 P2 eB e1 e2 HS A1 G1) as (r1 & r2 & R1 & R2 & V).
  - exact (proj1 (ren_args F exchange sz p e2) A2).
  - intros x ds Hx. apply in_ren in Hx as (cs & Hx & ->). apply G2, Hx.
  - exists r1, r2. split; [exact R1|]. split; [rewrite <- (run_ren exchange m2 p2 sz p e2); exact R2|].
    intros k x cs Hk. apply V, nth_out, Hk.
Qed.
Lemma exchange_names : forallb (fun x => names_ok (snd x) && nodup_names (map fst (p_in (ren exchange (snd x))))) unrestricted_functions = true.
Proof. vm_compute. reflexivity. Qed.
Lemma exchange_arguments name p : In (name, p) unrestricted_functions -> forall (F : fld) sz (eB : env F),
  exists e1 e2, args_ok sz (p_in p) e1 /\ (forall x cs, In (x, cs) (p_in p) -> given_by sz id_split unrestricted eB x cs (tens F (e1 x))) /\
    args_ok (fun c => sz (exchange c)) (p_in p) e2 /\ (forall x cs, In (x, cs) (p_in p) -> given_by sz id_split exchanged eB x (map exchange cs) (tens F (e2 x))).
Proof.
  intros H F sz eB. pose proof exchange_names as A. rewrite forallb_forall in A. specialize (A _ H).
  destruct (@arguments_exist_gen p (ren exchange p) id_split unrestricted exchanged F sz eB (splits_id sz) A) as (e1 & e2 & A1 & G1 & A2 & G2).
  exists e1, e2. split; [exact A1|]. split; [exact G1|]. split; [exact (proj2 (ren_args F exchange sz p e2) A2)|]. intros x cs Hx. apply G2, (@ren_in exchange p), Hx.
Qed.

(** Symmetries of the residuals. *)
Lemma all_symmetric_R : forallb (fun x => own spatial spatial_symmetries restricted (snd x) symmetric_R) restricted_residuals = true.
Proof. vm_compute. reflexivity. Qed.
Lemma all_symmetric_U : forallb (fun x => own spin_blocks spin_blocks_symmetries unrestricted (snd x) symmetric_U) unrestricted_residuals = true.
Proof. vm_compute. reflexivity. Qed.
Lemma all_symmetric_G : forallb (fun x => own general_basis general_basis_symmetries general (snd x) symmetric_G) general_residuals = true.
Proof. vm_compute. reflexivity. Qed.
Lemma symmetric_residuals_R name p : In (name, p) restricted_residuals ->
  forall (F : fld) sz, characteristic_zero F -> forall method path, path_ok path ->
  forall eB e : env F, symmetric sz spatial_symmetries spatial eB ->
  args_ok sz (p_in p) e -> (forall x cs, In (x, cs) (p_in p) -> given_by sz id_split restricted eB x cs (tens F (e x))) ->
  exists r, run method path sz p e = Ok r /\
    forall T, In T symmetric_R -> forall k x cs, nth_error (p_out p) k = Some (x, cs) -> given_by sz id_split T (results F (p_out p) r) x cs (entry F r k).
Proof. intros H. apply own_sound. pose proof all_symmetric_R as A. rewrite forallb_forall in A. apply (A _ H). Qed.
Lemma symmetric_residuals_U name p : In (name, p) unrestricted_residuals ->
  forall (F : fld) sz, characteristic_zero F -> forall method path, path_ok path ->
  forall eB e : env F, symmetric sz spin_blocks_symmetries spin_blocks eB ->
  args_ok sz (p_in p) e -> (forall x cs, In (x, cs) (p_in p) -> given_by sz id_split unrestricted eB x cs (tens F (e x))) ->
  exists r, run method path sz p e = Ok r /\
    forall T, In T symmetric_U -> forall k x cs, nth_error (p_out p) k = Some (x, cs) -> given_by sz id_split T (results F (p_out p) r) x cs (entry F r k).
Proof. intros H. apply own_sound. pose proof all_symmetric_U as A. rewrite forallb_forall in A. apply (A _ H). Qed.
Lemma symmetric_residuals_G name p : In (name, p) general_residuals ->
  forall (F : fld) sz, characteristic_zero F -> forall method path, path_ok path ->
  forall eB e : env F, symmetric sz general_basis_symmetries general_basis eB ->
  args_ok sz (p_in p) e -> (forall x cs, In (x, cs) (p_in p) -> given_by sz id_split general eB x cs (tens F (e x))) ->
  exists r, run method path sz p e = Ok r /\
    forall T, In T symmetric_G -> forall k x cs, nth_error (p_out p) k = Some (x, cs) -> given_by sz id_split T (results F (p_out p) r) x cs (entry F r k).
Proof. intros H. apply own_sound. pose proof all_symmetric_G as A. rewrite forallb_forall in A. apply (A _ H). Qed.

(** Textbook equations. *)
Definition textbook : list (string * (prog * table)) :=
  [("GCCSD.energy", (GCCSD_energy, ccsd)); ("GCCSD.update_amps", (GCCSD_update_amps, ccsd));
   ("GCCD.energy", (GCCD_energy, ccd)); ("GCCD.update_amps", (GCCD_update_amps, ccd));
   ("GLCCSD.energy", (GLCCSD_energy, lccsd)); ("GLCCSD.update_amps", (GLCCSD_update_amps, lccsd));
   ("GLCCD.energy", (GLCCD_energy, lccd)); ("GLCCD.update_amps", (GLCCD_update_amps, lccd));
   ("GCC2.energy", (GCC2_energy, cc2)); ("GCC2.update_amps", (GCC2_update_amps, cc2));
   ("GMP2.energy", (GMP2_energy, mp2)); ("GMP3.energy", (GMP3_energy, mp3))].
(** The arguments when the Fock matrix does not couple occupied and virtual orbitals. *)
Definition uncoupled : table := filter (fun r => negb (existsb (Pos.eqb (fst r)) [n_f'ov; n_f'vo])) general.
Definition textbook_uncoupled : list (string * (prog * table)) :=
  [("GQCISD.energy", (GQCISD_energy, qcisd)); ("GQCISD.update_amps", (GQCISD_update_amps, qcisd))].
Lemma all_textbook : forallb (fun x => computes general_basis general_basis_symmetries id_split general (fst (snd x)) (snd (snd x))) textbook = true.
Proof. vm_compute. reflexivity. Qed.
Lemma all_textbook_uncoupled : forallb (fun x => computes general_basis general_basis_symmetries id_split uncoupled (fst (snd x)) (snd (snd x))) textbook_uncoupled = true.
Proof. vm_compute. reflexivity. Qed.
Lemma textbook_agree name p T : In (name, (p, T)) textbook ->
  forall (F : fld) sz, characteristic_zero F -> forall method path, path_ok path ->
  forall eB e : env F, symmetric sz general_basis_symmetries general_basis eB ->
  args_ok sz (p_in p) e -> (forall x cs, In (x, cs) (p_in p) -> given_by sz id_split general eB x cs (tens F (e x))) ->
  exists r, run method path sz p e = Ok r /\
    forall k x cs, nth_error (p_out p) k = Some (x, cs) -> given_by sz id_split T eB x cs (entry F r k).
Proof. intros H F sz H0. apply computes_sound; [|exact H0|apply splits_id]. pose proof all_textbook as A. rewrite forallb_forall in A. apply (A _ H). Qed.
Lemma textbook_agree_uncoupled name p T : In (name, (p, T)) textbook_uncoupled ->
  forall (F : fld) sz, characteristic_zero F -> forall method path, path_ok path ->
  forall eB e : env F, symmetric sz general_basis_symmetries general_basis eB ->
  args_ok sz (p_in p) e -> (forall x cs, In (x, cs) (p_in p) -> given_by sz id_split uncoupled eB x cs (tens F (e x))) ->
  exists r, run method path sz p e = Ok r /\
    forall k x cs, nth_error (p_out p) k = Some (x, cs) -> given_by sz id_split T eB x cs (entry F r k).
Proof. intros H F sz H0. apply computes_sound; [|exact H0|apply splits_id]. pose proof all_textbook_uncoupled as A. rewrite forallb_forall in A. apply (A _ H). Qed.

(** Arguments of one function. *)
Lemma arguments_exist_one p T (F : fld) sz (eB : env F) : nodup_names (map fst (p_in p)) = true ->
  exists e, args_ok sz (p_in p) e /\ (forall x cs, In (x, cs) (p_in p) -> given_by sz id_split T eB x cs (tens F (e x))).
Proof.
  intros H. apply nodup_names_ok in H. exists (build sz id_split T eB (p_in p)). split; [apply build_args, H|apply build_given; [apply splits_id|exact H]].
Qed.
Lemma residual_names : forallb (fun x => names_ok (snd x)) (restricted_residuals ++ unrestricted_residuals ++ general_residuals) = true.
Proof. vm_compute. reflexivity. Qed.
Lemma textbook_names : forallb (fun x => names_ok (fst (snd x))) (textbook ++ textbook_uncoupled) = true.
Proof. vm_compute. reflexivity. Qed.
Lemma residual_arguments name p : In (name, p) (restricted_residuals ++ unrestricted_residuals ++ general_residuals) ->
  forall T (F : fld) sz (eB : env F), exists e, args_ok sz (p_in p) e /\ (forall x cs, In (x, cs) (p_in p) -> given_by sz id_split T eB x cs (tens F (e x))).
Proof. intros H T F sz eB. apply arguments_exist_one. pose proof residual_names as A. rewrite forallb_forall in A. apply (A _ H). Qed.
Lemma textbook_arguments name p T0 : In (name, (p, T0)) (textbook ++ textbook_uncoupled) ->
  forall T (F : fld) sz (eB : env F), exists e, args_ok sz (p_in p) e /\ (forall x cs, In (x, cs) (p_in p) -> given_by sz id_split T eB x cs (tens F (e x))).
Proof. intros H T F sz eB. apply arguments_exist_one. pose proof textbook_names as A. rewrite forallb_forall in A. apply (A _ H). Qed.
