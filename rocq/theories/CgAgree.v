(** The corresponding functions agree. *)
From Coq Require Import Field List String ZArith.
From Verif Require Import Base Alg ArrModel EinsumModel CgModel CgSpec CgFormSpec CgProofs CgPoly CgCompare CgCompareProofs CgBuild CgNames CgTables CgPairs Cg_RCCSD_S_1_1 Cg_UCCSD_S_1_1.
Import ListNotations.
Local Open Scope nat_scope.

Definition check_ru (p q : prog) : bool := compare spatial spatial_symmetries restricted p closed_split closed_shell q closed_shell_results.
Definition check_ug (p q : prog) : bool := compare spin_blocks spin_blocks_symmetries unrestricted p spin_split spin_orbital q spin_orbital_results.
Lemma all_ru : forallb (fun x => check_ru (fst (snd x)) (snd (snd x))) restricted_unrestricted = true.
Proof. vm_compute. reflexivity. Qed.
Lemma all_ru_rounded : forallb (fun x => check_ru (rounded (fst (snd x))) (rounded (snd (snd x)))) restricted_unrestricted_rounded = true.
Proof. vm_compute. reflexivity. Qed.
Lemma all_ug : forallb (fun x => check_ug (fst (snd x)) (snd (snd x))) unrestricted_general = true.
Proof. vm_compute. reflexivity. Qed.
Lemma all_ug_rounded : forallb (fun x => check_ug (rounded (fst (snd x))) (rounded (snd (snd x)))) unrestricted_general_rounded = true.
Proof. vm_compute. reflexivity. Qed.

Lemma closed_shell_agree name p q : In (name, (p, q)) restricted_unrestricted ->
  forall (F : fld) sz, characteristic_zero F -> splits sz closed_split ->
  forall method1 method2 path1 path2, path_ok path1 -> path_ok path2 ->
  forall eB e1 e2 : env F, symmetric sz spatial_symmetries spatial eB ->
  args_ok sz (p_in p) e1 -> (forall x cs, In (x, cs) (p_in p) -> given_by sz id_split restricted eB x cs (tens F (e1 x))) ->
  args_ok sz (p_in q) e2 -> (forall x cs, In (x, cs) (p_in q) -> given_by sz closed_split closed_shell eB x cs (tens F (e2 x))) ->
  exists r1 r2, run method1 path1 sz p e1 = Ok r1 /\ run method2 path2 sz q e2 = Ok r2 /\
    forall k x cs, nth_error (p_out q) k = Some (x, cs) -> given_by sz closed_split closed_shell_results (results F (p_out p) r1) x cs (entry F r2 k).
Proof. intros H. apply compare_sound. pose proof all_ru as A. rewrite forallb_forall in A. apply (A _ H). Qed.
Lemma closed_shell_agree_rounded name p q : In (name, (p, q)) restricted_unrestricted_rounded ->
  forall (F : fld) sz, characteristic_zero F -> splits sz closed_split ->
  forall method1 method2 path1 path2, path_ok path1 -> path_ok path2 ->
  forall eB e1 e2 : env F, symmetric sz spatial_symmetries spatial eB ->
  args_ok sz (p_in p) e1 -> (forall x cs, In (x, cs) (p_in p) -> given_by sz id_split restricted eB x cs (tens F (e1 x))) ->
  args_ok sz (p_in q) e2 -> (forall x cs, In (x, cs) (p_in q) -> given_by sz closed_split closed_shell eB x cs (tens F (e2 x))) ->
  exists r1 r2, run method1 path1 sz (rounded p) e1 = Ok r1 /\ run method2 path2 sz (rounded q) e2 = Ok r2 /\
    forall k x cs, nth_error (p_out q) k = Some (x, cs) -> given_by sz closed_split closed_shell_results (results F (p_out p) r1) x cs (entry F r2 k).
Proof. intros H. apply (@compare_sound spatial spatial_symmetries restricted (rounded p) closed_split closed_shell (rounded q)). pose proof all_ru_rounded as A. rewrite forallb_forall in A. apply (A _ H). Qed.
Lemma spin_orbital_agree name p q : In (name, (p, q)) unrestricted_general ->
  forall (F : fld) sz, characteristic_zero F -> splits sz spin_split ->
  forall method1 method2 path1 path2, path_ok path1 -> path_ok path2 ->
  forall eB e1 e2 : env F, symmetric sz spin_blocks_symmetries spin_blocks eB ->
  args_ok sz (p_in p) e1 -> (forall x cs, In (x, cs) (p_in p) -> given_by sz id_split unrestricted eB x cs (tens F (e1 x))) ->
  args_ok sz (p_in q) e2 -> (forall x cs, In (x, cs) (p_in q) -> given_by sz spin_split spin_orbital eB x cs (tens F (e2 x))) ->
  exists r1 r2, run method1 path1 sz p e1 = Ok r1 /\ run method2 path2 sz q e2 = Ok r2 /\
    forall k x cs, nth_error (p_out q) k = Some (x, cs) -> given_by sz spin_split spin_orbital_results (results F (p_out p) r1) x cs (entry F r2 k).
Proof. intros H. apply compare_sound. pose proof all_ug as A. rewrite forallb_forall in A. apply (A _ H). Qed.
Lemma spin_orbital_agree_rounded name p q : In (name, (p, q)) unrestricted_general_rounded ->
  forall (F : fld) sz, characteristic_zero F -> splits sz spin_split ->
  forall method1 method2 path1 path2, path_ok path1 -> path_ok path2 ->
  forall eB e1 e2 : env F, symmetric sz spin_blocks_symmetries spin_blocks eB ->
  args_ok sz (p_in p) e1 -> (forall x cs, In (x, cs) (p_in p) -> given_by sz id_split unrestricted eB x cs (tens F (e1 x))) ->
  args_ok sz (p_in q) e2 -> (forall x cs, In (x, cs) (p_in q) -> given_by sz spin_split spin_orbital eB x cs (tens F (e2 x))) ->
  exists r1 r2, run method1 path1 sz (rounded p) e1 = Ok r1 /\ run method2 path2 sz (rounded q) e2 = Ok r2 /\
    forall k x cs, nth_error (p_out q) k = Some (x, cs) -> given_by sz spin_split spin_orbital_results (results F (p_out p) r1) x cs (entry F r2 k).
Proof. intros H. apply (@compare_sound spin_blocks spin_blocks_symmetries unrestricted (rounded p) spin_split spin_orbital (rounded q)). pose proof all_ug_rounded as A. rewrite forallb_forall in A. apply (A _ H). Qed.

(** In one module the restricted singles residual is twice the unrestricted one. *)
Definition closed_shell_results_s_1_1 : table :=
  [(CgNames.n_t1new'aa, ([0; 10], [mono 1 2 [(CgNames.n_t1new, [0; 10])]]));
   (CgNames.n_t1new'bb, ([0; 10], [mono 1 2 [(CgNames.n_t1new, [0; 10])]]))] ++ closed_shell_results.
Lemma s_1_1_check : compare spatial spatial_symmetries restricted (rounded Cg_RCCSD_S_1_1.RCCSD_S_1_1_update_amps) closed_split
  closed_shell (rounded Cg_UCCSD_S_1_1.UCCSD_S_1_1_update_amps) closed_shell_results_s_1_1 = true.
Proof. vm_compute. reflexivity. Qed.
Definition fock_names : list ref := [n_f'oo; n_f'ov; n_f'vo; n_f'vv; n_f'aa'oo; n_f'aa'ov; n_f'aa'vo; n_f'aa'vv; n_f'bb'oo; n_f'bb'ov; n_f'bb'vo; n_f'bb'vv].
Definition only_fock (T : table) : table := filter (fun r => existsb (Pos.eqb (fst r)) fock_names) T.
Lemma s_1_1_r : computes spatial spatial_symmetries id_split (only_fock restricted) RCCSD_S_1_1_update_amps
  [(n_t1new, ([0; 10], [mono 2 1 [(n_f'ov, [0; 10])]]))] = true.
Proof. vm_compute. reflexivity. Qed.
Lemma s_1_1_u : computes spatial spatial_symmetries closed_split (only_fock closed_shell) UCCSD_S_1_1_update_amps
  [(n_t1new'aa, ([0; 10], [mono 1 1 [(n_f'ov, [0; 10])]])); (n_t1new'bb, ([0; 10], [mono 1 1 [(n_f'ov, [0; 10])]]))] = true.
Proof. vm_compute. reflexivity. Qed.

(** Arguments exist. *)
Definition pair_ok (x : string * (prog * prog)) : bool :=
  nodup_names (map fst (p_in (fst (snd x)))) && nodup_names (map fst (p_in (snd (snd x)))).
Lemma pairs_ok : forallb pair_ok (restricted_unrestricted ++ restricted_unrestricted_rounded ++ unrestricted_general ++ unrestricted_general_rounded) = true.
Proof. vm_compute. reflexivity. Qed.
Lemma arguments_exist_gen p q split T1 T2 (F : fld) sz (eB : env F) : splits sz split ->
  nodup_names (map fst (p_in p)) && nodup_names (map fst (p_in q)) = true ->
  exists e1 e2, args_ok sz (p_in p) e1 /\ (forall x cs, In (x, cs) (p_in p) -> given_by sz id_split T1 eB x cs (tens F (e1 x))) /\
    args_ok sz (p_in q) e2 /\ (forall x cs, In (x, cs) (p_in q) -> given_by sz split T2 eB x cs (tens F (e2 x))).
Proof.
  intros Hs H. apply andb_prop in H as [H1 H2]. apply nodup_names_ok in H1, H2.
  exists (build sz id_split T1 eB (p_in p)), (build sz split T2 eB (p_in q)).
  split; [apply build_args, H1|]. split; [apply build_given; [apply splits_id|exact H1]|].
  split; [apply build_args, H2|apply build_given; assumption].
Qed.
Lemma closed_shell_arguments name p q : In (name, (p, q)) (restricted_unrestricted ++ restricted_unrestricted_rounded) ->
  forall (F : fld) sz (eB : env F), splits sz closed_split ->
  exists e1 e2, args_ok sz (p_in p) e1 /\ (forall x cs, In (x, cs) (p_in p) -> given_by sz id_split restricted eB x cs (tens F (e1 x))) /\
    args_ok sz (p_in q) e2 /\ (forall x cs, In (x, cs) (p_in q) -> given_by sz closed_split closed_shell eB x cs (tens F (e2 x))).
Proof.
  intros H F sz eB Hs. apply arguments_exist_gen; [exact Hs|]. pose proof pairs_ok as A. rewrite forallb_forall in A. apply (A (name, (p, q))).
  rewrite app_assoc. apply in_or_app. left. exact H.
Qed.
Lemma spin_orbital_arguments name p q : In (name, (p, q)) (unrestricted_general ++ unrestricted_general_rounded) ->
  forall (F : fld) sz (eB : env F), splits sz spin_split ->
  exists e1 e2, args_ok sz (p_in p) e1 /\ (forall x cs, In (x, cs) (p_in p) -> given_by sz id_split unrestricted eB x cs (tens F (e1 x))) /\
    args_ok sz (p_in q) e2 /\ (forall x cs, In (x, cs) (p_in q) -> given_by sz spin_split spin_orbital eB x cs (tens F (e2 x))).
Proof.
  intros H F sz eB Hs. apply arguments_exist_gen; [exact Hs|]. pose proof pairs_ok as A. rewrite forallb_forall in A. apply (A (name, (p, q))).
  rewrite app_assoc. apply in_or_app. right. exact H.
Qed.

Section Singles.
Variable F : fld.
Add Field FfieldAgr : (fth F).
Lemma s_1_1_singles sz : characteristic_zero F -> splits sz closed_split ->
  forall method1 method2 path1 path2, path_ok path1 -> path_ok path2 ->
  forall eB e1 e2 : env F, symmetric sz spatial_symmetries spatial eB ->
  args_ok sz (p_in RCCSD_S_1_1_update_amps) e1 ->
  (forall x cs, In (x, cs) (p_in RCCSD_S_1_1_update_amps) -> given_by sz id_split (only_fock restricted) eB x cs (tens F (e1 x))) ->
  args_ok sz (p_in UCCSD_S_1_1_update_amps) e2 ->
  (forall x cs, In (x, cs) (p_in UCCSD_S_1_1_update_amps) -> given_by sz closed_split (only_fock closed_shell) eB x cs (tens F (e2 x))) ->
  exists r1 r2, run method1 path1 sz RCCSD_S_1_1_update_amps e1 = Ok r1 /\ run method2 path2 sz UCCSD_S_1_1_update_amps e2 = Ok r2 /\
    nth_error (p_out RCCSD_S_1_1_update_amps) 0 = Some (n_t1new, [0; 1]) /\ nth_error (p_out UCCSD_S_1_1_update_amps) 0 = Some (n_t1new'aa, [4; 5]) /\
    forall i a, i < sz 0 -> a < sz 1 ->
      entry F r1 0 [i; a] = radd (tens F (eB n_f'ov) [i; a]) (tens F (eB n_f'ov) [i; a]) /\ entry F r2 0 [i; a] = tens F (eB n_f'ov) [i; a].
Proof.
  intros H0 Hs m1 m2 p1 p2 P1 P2 eB e1 e2 HS A1 G1 A2 G2.
  destruct (@computes_sound _ _ _ _ _ _ s_1_1_r F sz H0 (splits_id sz) m1 p1 P1 eB e1 HS A1 G1) as (r1 & R1 & V1).
  destruct (@computes_sound _ _ _ _ _ _ s_1_1_u F sz H0 Hs m2 p2 P2 eB e2 HS A2 G2) as (r2 & R2 & V2).
  exists r1, r2. split; [exact R1|]. split; [exact R2|].
  assert (E1 : nth_error (p_out RCCSD_S_1_1_update_amps) 0 = Some (n_t1new, [0; 1])) by reflexivity.
  assert (E2 : nth_error (p_out UCCSD_S_1_1_update_amps) 0 = Some (n_t1new'aa, [4; 5])) by reflexivity.
  split; [exact E1|]. split; [exact E2|]. intros i a Hi Ha.
  specialize (V1 0 _ _ E1 [0; 1] [i; a] (or_introl eq_refl)). specialize (V2 0 _ _ E2 [0; 1] [i; a] (or_introl eq_refl)).
  assert (Hin : inb (map sz [0; 1]) [i; a]) by (repeat constructor; assumption). specialize (V1 Hin). specialize (V2 Hin).
  cbn in V1, V2. rewrite V1, V2. unfold coef. cbn.
  change (Pos.to_nat 2) with 2. change (Pos.to_nat 1) with 1. cbn [rnat].
  split.
  - field. intros E. change (@Alg.r1 F = @Alg.r0 F) in E. apply (H0 0). cbn [rnat]. rewrite E. ring.
  - field. intros E. change (@Alg.r1 F = @Alg.r0 F) in E. apply (H0 0). cbn [rnat]. rewrite E. ring.
Qed.
End Singles.
