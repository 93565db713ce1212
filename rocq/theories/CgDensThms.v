(** The checks of CgDens evaluated on the functions that compute density matrices. *)
From Coq Require Import List String ZArith.
From Verif Require Import Base Alg ArrModel EinsumModel CgModel CgSpec CgFormSpec CgProofs CgPoly CgCompare CgCompareProofs CgBuild CgRename.
From Verif Require Import CgNames CgTables CgTables2 CgRelSpec CgRel CgRelProofs CgOwn CgPart CgPairs CgDensTables CgDensSpec CgDensPairs CgDens CgAgree CgAgree2.
Import ListNotations.
Local Open Scope nat_scope.

Definition check_energies B S T (l : list (string * (list prog * (formula * (formula * formula))))) : bool :=
  forallb (fun x => energy_check B S T (fst (snd x)) (fst (snd (snd x))) (fst (snd (snd (snd x)))) (snd (snd (snd (snd x))))) l.
Lemma check_energies_sound B S T l : check_energies B S T l = true -> forall name ps h e r, In (name, (ps, (h, (e, r)))) l -> energy_of_densities B S T ps h e r.
Proof. intros H name ps h e r Hi. apply energy_sound. unfold check_energies in H. rewrite forallb_forall in H. exact (H _ Hi). Qed.
Lemma all_energies_R : check_energies spatial spatial_symmetries restricted energies_R = true.
Proof. vm_compute. reflexivity. Qed.
Lemma all_energies_U : check_energies spin_blocks spin_blocks_symmetries unrestricted energies_U = true.
Proof. vm_compute. reflexivity. Qed.
Lemma all_energies_G : check_energies general_basis general_basis_symmetries general (energies_G ++ energies_G_rounded) = true.
Proof. vm_compute. reflexivity. Qed.
Lemma energy_R name ps h e r : In (name, (ps, (h, (e, r)))) energies_R -> energy_of_densities spatial spatial_symmetries restricted ps h e r.
Proof. exact (@check_energies_sound _ _ _ _ all_energies_R name ps h e r). Qed.
Lemma energy_U name ps h e r : In (name, (ps, (h, (e, r)))) energies_U -> energy_of_densities spin_blocks spin_blocks_symmetries unrestricted ps h e r.
Proof. exact (@check_energies_sound _ _ _ _ all_energies_U name ps h e r). Qed.
Lemma energy_G name ps h e r : In (name, (ps, (h, (e, r)))) energies_G -> energy_of_densities general_basis general_basis_symmetries general ps h e r.
Proof. intros H. apply (@check_energies_sound _ _ _ _ all_energies_G name). apply in_or_app. left. exact H. Qed.
Lemma energy_G_rounded name ps h e r : In (name, (ps, (h, (e, r)))) energies_G_rounded -> energy_of_densities general_basis general_basis_symmetries general ps h e r.
Proof. intros H. apply (@check_energies_sound _ _ _ _ all_energies_G name). apply in_or_app. right. exact H. Qed.

Definition check_traces B S T (l : list (string * (prog * prog * list (list nat * formula * factor * formula)))) : bool :=
  forallb (fun x => traces_check B S T (fst (fst (snd x))) (snd (fst (snd x))) (snd (snd x))) l.
Lemma check_traces_sound B S T l : check_traces B S T l = true -> forall name p1 p2 t, In (name, (p1, p2, t)) l -> traces_hold B S T p1 p2 t.
Proof. intros H name p1 p2 t Hi. apply traces_sound. unfold check_traces in H. rewrite forallb_forall in H. exact (H _ Hi). Qed.
Lemma all_traces_R : check_traces spatial spatial_symmetries restricted (traced_R ++ traced_R_rounded) = true.
Proof. vm_compute. reflexivity. Qed.
Lemma all_traces_U : check_traces spin_blocks spin_blocks_symmetries unrestricted traced_U = true.
Proof. vm_compute. reflexivity. Qed.
Lemma all_traces_G : check_traces general_basis general_basis_symmetries general (traced_G ++ traced_G_rounded) = true.
Proof. vm_compute. reflexivity. Qed.
Lemma trace_R name p1 p2 t : In (name, (p1, p2, t)) traced_R -> traces_hold spatial spatial_symmetries restricted p1 p2 t.
Proof. intros H. apply (@check_traces_sound _ _ _ _ all_traces_R name). apply in_or_app. left. exact H. Qed.
Lemma trace_R_rounded name p1 p2 t : In (name, (p1, p2, t)) traced_R_rounded -> traces_hold spatial spatial_symmetries restricted p1 p2 t.
Proof. intros H. apply (@check_traces_sound _ _ _ _ all_traces_R name). apply in_or_app. right. exact H. Qed.
Lemma trace_U name p1 p2 t : In (name, (p1, p2, t)) traced_U -> traces_hold spin_blocks spin_blocks_symmetries unrestricted p1 p2 t.
Proof. exact (@check_traces_sound _ _ _ _ all_traces_U name p1 p2 t). Qed.
Lemma trace_G name p1 p2 t : In (name, (p1, p2, t)) traced_G -> traces_hold general_basis general_basis_symmetries general p1 p2 t.
Proof. intros H. apply (@check_traces_sound _ _ _ _ all_traces_G name). apply in_or_app. left. exact H. Qed.
Lemma trace_G_rounded name p1 p2 t : In (name, (p1, p2, t)) traced_G_rounded -> traces_hold general_basis general_basis_symmetries general p1 p2 t.
Proof. intros H. apply (@check_traces_sound _ _ _ _ all_traces_G name). apply in_or_app. right. exact H. Qed.

Definition check_own B S T (l : list (string * (prog * list table))) : bool := forallb (fun x => own B S T (fst (snd x)) (snd (snd x))) l.
Lemma check_own_sound B S T l : check_own B S T l = true -> forall name p ts, In (name, (p, ts)) l -> forall t, In t ts -> own_symmetry B S T p t.
Proof. intros H name p ts Hi t Ht. apply (@own_each B S T p ts t); [|exact Ht]. unfold check_own in H. rewrite forallb_forall in H. exact (H _ Hi). Qed.
Lemma all_own_R : check_own spatial spatial_symmetries restricted symmetric_R = true.
Proof. vm_compute. reflexivity. Qed.
Lemma all_own_U : check_own spin_blocks spin_blocks_symmetries unrestricted symmetric_U = true.
Proof. vm_compute. reflexivity. Qed.
Lemma all_own_G : check_own general_basis general_basis_symmetries general (symmetric_G ++ symmetric_G_rounded) = true.
Proof. vm_compute. reflexivity. Qed.
Lemma own_G name p ts t : In (name, (p, ts)) symmetric_G -> In t ts -> own_symmetry general_basis general_basis_symmetries general p t.
Proof. intros H. apply (@check_own_sound _ _ _ _ all_own_G name p ts). apply in_or_app. left. exact H. Qed.
Lemma own_G_rounded name p ts t : In (name, (p, ts)) symmetric_G_rounded -> In t ts -> own_symmetry general_basis general_basis_symmetries general p t.
Proof. intros H. apply (@check_own_sound _ _ _ _ all_own_G name p ts). apply in_or_app. right. exact H. Qed.

Lemma all_RU : forallb (fun x => restricted_check (fst (fst (snd x))) (snd (fst (snd x))) (snd (snd x))) (densities_RU ++ densities_RU_rounded) = true.
Proof. vm_compute. reflexivity. Qed.
Lemma agree_RU name q u t : In (name, (q, u, t)) (densities_RU ++ densities_RU_rounded) -> restricted_densities q u t.
Proof. intros Hi. apply restricted_sound. pose proof all_RU as H. rewrite forallb_forall in H. exact (H _ Hi). Qed.
Lemma all_UG : forallb (fun x => compare spin_blocks spin_blocks_symmetries unrestricted (fst (fst (snd x))) spin_split spin_orbital (snd (fst (snd x))) (snd (snd x)))
  (densities_UG ++ densities_UG_rounded) = true.
Proof. vm_compute. reflexivity. Qed.
Lemma agree_UG name u g t : In (name, (u, g, t)) (densities_UG ++ densities_UG_rounded) -> general_densities u g t.
Proof. intros Hi. apply general_sound. pose proof all_UG as H. rewrite forallb_forall in H. exact (H _ Hi). Qed.

(** Arguments. *)
Lemma density_arguments p T (F : fld) sz (eB : env F) : nodup_names (map fst (p_in p)) = true -> exists e, called_with sz eB T p e.
Proof. intros H. destruct (@arguments_exist_one p T F sz eB H) as (e & A & G). exists e. split; [exact A|exact G]. Qed.
Lemma closed_names : forallb (fun x => nodup_names (map fst (p_in (fst (fst (snd x))))) && nodup_names (map fst (p_in (snd (fst (snd x)))))) (densities_RU ++ densities_RU_rounded) = true.
Proof. vm_compute. reflexivity. Qed.
Lemma closed_arguments name q u Tout : In (name, (q, u, Tout)) (densities_RU ++ densities_RU_rounded) ->
  forall (F : fld) sz (eB : env F), exists e1 e2, called_with sz eB restricted q e1 /\ args_ok (fun c => sz (closed c)) (p_in u) e2 /\
    (forall x cs, In (x, cs) (p_in u) -> given_by sz id_blocks closed_shell eB x (map closed cs) (tens F (e2 x))).
Proof.
  intros H F sz eB. pose proof closed_names as N. rewrite forallb_forall in N. specialize (N _ H). cbn [fst snd] in N. apply andb_prop in N as [Nq Nu].
  destruct (@density_arguments q restricted F sz eB Nq) as [e1 E1]. destruct (@density_arguments (ren closed u) closed_shell F sz eB) as [e2 [A G]].
  { cbn [ren p_in]. unfold ren_list. rewrite map_map. exact Nu. }
  exists e1, e2. split; [exact E1|]. split; [exact (proj2 (ren_args F closed sz u e2) A)|]. intros x cs Hx. apply G, (@ren_in closed u), Hx.
Qed.
