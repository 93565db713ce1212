(** Theorems for C40 (the Brueckner loop), C41 (rotated amplitudes) and C57 (Brueckner orbitals). *)
From Coq Require Import String ZArith QArith_base.
From Coq Require Qcanon.
From Verif Require Import Base Alg ArrModel PermModel EinsumModel EinPathModel SpaceModel SpaceSpec AnsatzModel VecModel CcModel CcEx
  OptModel OptSpec OptTrans OptOrb OptLoop OptEx.
Local Open Scope string_scope.
Local Open Scope list_scope.
Local Open Scope nat_scope.

(** C40, whatever the coupled cluster solver, the mean field, the rotations and the accelerator do: the kernel runs at most
    [max_iter] cycles, none but the last of which met both tolerances; it ends at the first that did or after [max_iter].
    It starts from the given calculation, solved first if it was not converged, and returns the correlation energy
    of the calculation it leaves behind. *)
Theorem C40_kernel_cycles : forall (A M U D R : Type) (ltb : R -> R -> bool) (absdiff plus : R -> R -> R) solve
    (get_rotation : A -> option U -> D -> result (D * U * U)) (to_correlated : M -> result M) update_coefficients mean_field_energy transform t1_norm
    same_object damping0 o b e b',
  kernel ltb absdiff plus solve get_rotation to_correlated update_coefficients mean_field_energy transform t1_norm same_object damping0 o b = Ok (e, b') ->
  exists ref s0 s k stopped, k <= max_iter o /\
    cycles (cycle absdiff plus solve get_rotation update_coefficients mean_field_energy transform t1_norm same_object ref)
           (fun de dt => ltb de (e_tol o) && ltb dt (t_tol o)) k s0 s stopped /\ (stopped = true \/ k = max_iter o) /\
    calculation b' = cc_of s /\ e = e_corr (calculation b') /\ to_correlated (mo (cc_of s0)) = Ok ref /\ u_tot s0 = None /\
    (if cc_converged (calculation b) then cc_of s0 = calculation b
     else exists a ec cv, solve (mo (calculation b)) (amplitudes (calculation b)) = Ok (a, ec, cv) /\
            amplitudes (cc_of s0) = a /\ e_corr (cc_of s0) = ec /\ mo (cc_of s0) = mo (calculation b)).
Proof. exact kernel_cycles. Qed.
Print Assumptions C40_kernel_cycles.
(** C40: every cycle turns the reference orbitals by the accumulated rotation, rotates the amplitudes and solves
    the coupled cluster equations again from there in the new orbitals. *)
Theorem C40_one_cycle : forall (A M U D R : Type) (absdiff plus : R -> R -> R) solve
    (get_rotation : A -> option U -> D -> result (D * U * U)) (update_coefficients : U -> M -> M -> result M) mean_field_energy transform t1_norm same_object ref s s' de dt,
  cycle absdiff plus solve get_rotation update_coefficients mean_field_energy transform t1_norm same_object ref s = Ok (s', de, dt) ->
  exists d u ut a a' ec cv em, get_rotation (amplitudes (cc_of s)) (u_tot s) (accel s) = Ok (d, u, ut) /\
    update_coefficients ut (coeff s) ref = Ok (coeff s') /\ mean_field_energy (coeff s') = Ok em /\ transform u (amplitudes (cc_of s)) = Ok a /\
    solve (coeff s') a = Ok (a', ec, cv) /\ amplitudes (cc_of s') = a' /\ e_corr (cc_of s') = ec /\ cc_converged (cc_of s') = cv /\ u_tot s' = Some ut /\ accel s' = d.
Proof. exact cycle_again. Qed.
Print Assumptions C40_one_cycle.
(** C40: what the two tolerances bound when the loop stops.  The norm is that of the single amplitudes left behind.  The
    energy compared with the new total energy is the old correlation energy added to the mean-field energy of the [new]
    orbitals if the calculation uses the mean-field object the optimiser changes ([own]); then the mean-field
    part cancels. *)
Theorem C40_tolerances : forall (A M U D R : Type) (ltb : R -> R -> bool) (absdiff plus : R -> R -> R) solve
    (get_rotation : A -> option U -> D -> result (D * U * U)) (update_coefficients : U -> M -> M -> result M) mean_field_energy transform t1_norm same_object o ref k s0 s,
  cycles (cycle absdiff plus solve get_rotation update_coefficients mean_field_energy transform t1_norm same_object ref)
         (fun de dt => ltb de (e_tol o) && ltb dt (t_tol o)) k s0 s true ->
  exists s1 dt em, t1_norm (amplitudes (cc_of s)) = Ok dt /\ ltb dt (t_tol o) = true /\ mean_field_energy (coeff s) = Ok em /\
    e_mf (cc_of s) = em /\ mo (cc_of s) = coeff s /\
    cycles (cycle absdiff plus solve get_rotation update_coefficients mean_field_energy transform t1_norm same_object ref)
           (fun de dt => ltb de (e_tol o) && ltb dt (t_tol o)) (pred k) s0 s1 false /\
    ltb (absdiff (plus (if own (cc_of s1) then em else e_mf (cc_of s1)) (e_corr (cc_of s1))) (plus em (e_corr (cc_of s)))) (e_tol o) = true.
Proof. exact stopped_last. Qed.
Print Assumptions C40_tolerances.
(** C40: the flag [converged] of the optimiser is never written. *)
Theorem C40_flag_never_set : forall (A M U D R : Type) (ltb : R -> R -> bool) (absdiff plus : R -> R -> R) solve
    (get_rotation : A -> option U -> D -> result (D * U * U)) (to_correlated : M -> result M) update_coefficients mean_field_energy transform t1_norm
    same_object damping0 o b e b',
  kernel ltb absdiff plus solve get_rotation to_correlated update_coefficients mean_field_energy transform t1_norm same_object damping0 o b = Ok (e, b') ->
  converged b' = converged b.
Proof. exact kernel_flag. Qed.
Print Assumptions C40_flag_never_set.
(** So it stays False after a cycle that met both tolerances. *)
Theorem C40_flag_refuted : exists o b b' ref s0 s, num_kernel 0 o b = Ok ((-5)%Z, b') /\
  cycles (num_cycle 0 ref) (fun de dt => Z.ltb de (e_tol o) && Z.ltb dt (t_tol o)) 1 s0 s true /\ calculation b' = cc_of s /\ converged b' = false.
Proof.
  exists (mkbo 1%Z 1%Z 20), (mkbr (num_start 0) false), (mkbr (mkcalc 0%Z (-5)%Z true 0%Z 1%Z true) false), 0%Z, (mkst (num_start 0) None 0%Z tt), (mkst (mkcalc 0%Z (-5)%Z true 0%Z 1%Z true) (Some tt) 1%Z tt).
  split; [vm_compute; reflexivity|]. split; [|split; reflexivity].
  exact (@one_more _ _ (num_cycle 0 0%Z) (fun de dt => Z.ltb de 1%Z && Z.ltb dt 1%Z) 0 (mkst (num_start 0) None 0%Z tt) (mkst (num_start 0) None 0%Z tt) (mkst (mkcalc 0%Z (-5)%Z true 0%Z 1%Z true) (Some tt) 1%Z tt) 0%Z 0%Z (none_yet _ _ _) eq_refl).
Qed.
Print Assumptions C40_flag_refuted.
(** And the loop stops although the total energy changed by 100 in the only cycle, with tolerance 1. *)
Theorem C40_energy_change_refuted : exists o b e b', num_kernel 100 o b = Ok (e, b') /\ max_iter o = 20 /\ mo (calculation b') = 1%Z /\
  Z.ltb (Z.abs (e_tot Z.add (calculation b) - e_tot Z.add (calculation b'))) (e_tol o) = false.
Proof. exists (mkbo 1%Z 1%Z 20), (mkbr (num_start 0) false). eexists _, _. split; [vm_compute; reflexivity|]. repeat split. Qed.
Print Assumptions C40_energy_change_refuted.
(** The loop running out of cycles: single amplitudes of norm 3 stay above the tolerance. *)
Example C40_case : num_kernel 1 (mkbo 1%Z 1%Z 4) (mkbr (num_start 3) false) = Ok ((-5)%Z, mkbr (mkcalc 3%Z (-5)%Z true 4%Z 4%Z true) false).
Proof. vm_compute. reflexivity. Qed.

(** C41, restricted and general, for ansatze with fermionic amplitudes over all correlated orbitals (rank up to 13):
    every amplitude is replaced by its rotated form, each axis with its block of [u]; nothing else changes.  Partial:
    amplitudes over active orbitals only are not covered. *)
Theorem C41_restricted_and_general_partial : forall (F : fld) method path_of, proper_paths path_of ->
  forall a sp rspin fs (u : arr F) given cur,
  fermionic_cluster_ranks a rspin Wt = Ok fs -> bosonic_cluster_ranks a Wt = Ok [] -> coupling_cluster_ranks a Wt = Ok [] ->
  NoDup (map (fun e => fst (fst e)) fs) -> matrix (ncocc sp + ncvir sp) (ncocc sp + ncvir sp) u ->
  (forall name key n, In (name, key, n) fs -> (1 <= n <= 13)%nat /\
     exists x, dget pystr_eq_dec name cur = Some (VArr x) /\ wf x /\ shp x = repeat (ncocc sp) n ++ repeat (ncvir sp) n) ->
  exists d, rg_transform F method path_of a sp rspin u given cur = Ok d /\ map fst d = map fst cur /\
    (forall name key n x, In (name, key, n) fs -> dget pystr_eq_dec name cur = Some (VArr x) ->
       exists y, dget pystr_eq_dec name d = Some (VArr y) /\ rotated (orbital_rotation (ncocc sp) n u) x y) /\
    (forall name, ~ In name (map (fun e => fst (fst e)) fs) -> dget pystr_eq_dec name d = dget pystr_eq_dec name cur).
Proof. exact transform_ok. Qed.
Print Assumptions C41_restricted_and_general_partial.
(** C41: the identity leaves the amplitudes as they are. *)
Theorem C41_identity_partial : forall (F : fld) method path_of, proper_paths path_of ->
  forall a sp rspin fs (u : arr F) given cur,
  fermionic_cluster_ranks a rspin Wt = Ok fs -> bosonic_cluster_ranks a Wt = Ok [] -> coupling_cluster_ranks a Wt = Ok [] ->
  NoDup (map (fun e => fst (fst e)) fs) -> matrix (ncocc sp + ncvir sp) (ncocc sp + ncvir sp) u ->
  (forall i j, (i < ncocc sp + ncvir sp)%nat -> (j < ncocc sp + ncvir sp)%nat -> el u i j = delta i j) ->
  (forall name key n, In (name, key, n) fs -> (1 <= n <= 13)%nat /\
     exists x, dget pystr_eq_dec name cur = Some (VArr x) /\ wf x /\ shp x = repeat (ncocc sp) n ++ repeat (ncvir sp) n) ->
  exists d, rg_transform F method path_of a sp rspin u given cur = Ok d /\ map fst d = map fst cur /\
    forall name, dget pystr_eq_dec name d = dget pystr_eq_dec name cur.
Proof. exact transform_identity. Qed.
Print Assumptions C41_identity_partial.
Example C41_case : proper_paths all_at_once /\ fermionic_cluster_ranks opt_ansatz true Wt = Ok opt_fs /\
  bosonic_cluster_ranks opt_ansatz Wt = Ok [] /\ coupling_cluster_ranks opt_ansatz Wt = Ok [] /\
  NoDup (map (fun e : entry => fst (fst e)) opt_fs) /\ matrix (ncocc opt_full + ncvir opt_full) (ncocc opt_full + ncvir opt_full) opt_u /\
  (forall name key n, In (name, key, n) opt_fs -> (1 <= n <= 13)%nat /\
     exists x, dget pystr_eq_dec name opt_amps = Some (VArr x) /\ wf x /\ shp x = repeat (ncocc opt_full) n ++ repeat (ncvir opt_full) n).
Proof.
  split; [exact all_at_once_proper|]. split; [vm_compute; reflexivity|]. split; [vm_compute; reflexivity|]. split; [vm_compute; reflexivity|].
  split; [exact opt_nodup|]. split; [split; vm_compute; reflexivity|]. exact opt_amps_fit.
Qed.

(** C41, unrestricted: of each amplitude only the last spin block is rotated, the others stay as they are. *)
Theorem C41_unrestricted_partial : forall (F : fld) method path_of, proper_paths path_of ->
  forall a sa sb fs (ua ub : arr F) given cur,
  fermionic_cluster_ranks a false Wt = Ok fs -> bosonic_cluster_ranks a Wt = Ok [] -> coupling_cluster_ranks a Wt = Ok [] ->
  NoDup (map (fun e => fst (fst e)) fs) -> matrix (ncocc sa + ncvir sa) (ncocc sa + ncvir sa) ua -> matrix (ncocc sb + ncvir sb) (ncocc sb + ncvir sb) ub ->
  (forall name key n, In (name, key, n) fs -> (1 <= n <= 13)%nat /\ exists xs, dget pystr_eq_dec name cur = Some (VSpin xs) /\
     forall comb, In comb (generate_spin_combinations n false true) -> exists x, dget pystr_eq_dec comb xs = Some x /\ wf x /\
       shp x = spin_dims (ncocc sa) (ncvir sa) (ncocc sb) (ncvir sb) n comb) ->
  exists d, u_transform F method path_of a sa sb ua ub given cur = Ok d /\ map fst d = map fst cur /\
    (forall name key n xs, In (name, key, n) fs -> dget pystr_eq_dec name cur = Some (VSpin xs) ->
       exists ys, dget pystr_eq_dec name d = Some (VSpin ys) /\ forall comb,
         if pystr_eq_dec comb (last (generate_spin_combinations n false true) [])
         then forall x, dget pystr_eq_dec comb xs = Some x -> exists y, dget pystr_eq_dec comb ys = Some y /\ rotated (spin_rotation (ncocc sa) (ncocc sb) n ua ub comb) x y
         else dget pystr_eq_dec comb ys = dget pystr_eq_dec comb xs) /\
    (forall name, ~ In name (map (fun e => fst (fst e)) fs) -> dget pystr_eq_dec name d = dget pystr_eq_dec name cur).
Proof. exact u_transform_ok. Qed.
Print Assumptions C41_unrestricted_partial.
Example C41_unrestricted_case : fermionic_cluster_ranks opt_ansatz false Wt = Ok opt_fs /\
  matrix (ncocc opt_full + ncvir opt_full) (ncocc opt_full + ncvir opt_full) opt_u /\
  matrix (ncocc opt_frozen + ncvir opt_frozen) (ncocc opt_frozen + ncvir opt_frozen) opt_ub /\
  (forall name key n, In (name, key, n) opt_fs -> (1 <= n <= 13)%nat /\ exists xs, dget pystr_eq_dec name opt_uamps = Some (VSpin xs) /\
     forall comb, In comb (generate_spin_combinations n false true) -> exists x, dget pystr_eq_dec comb xs = Some x /\ wf x /\
       shp x = spin_dims (ncocc opt_full) (ncvir opt_full) (ncocc opt_frozen) (ncvir opt_frozen) n comb).
Proof. split; [vm_compute; reflexivity|]. split; [split; vm_compute; reflexivity|]. split; [split; vm_compute; reflexivity|]. exact opt_uamps_fit. Qed.
(** The block [bb] of the single amplitudes: 7 stays 7 where the rotation makes it 105. *)
Theorem C41_unrestricted_refuted : exists d ys x, 
  u_transform Qc_fld None all_at_once opt_ansatz opt_full opt_frozen opt_u opt_ub None opt_uamps = Ok d /\
  dget pystr_eq_dec (str "t1") d = Some (VSpin ys) /\ dget pystr_eq_dec (str "bb") ys = Some (mkarr [1; 1] (qs [7]%Z)) /\
  opt_uamps = [(str "t1", VSpin [(str "aa", x); (str "bb", mkarr [1; 1] (qs [7]%Z))]); nth 1 opt_uamps (str "", VSpin [])] /\
  ~ rotated (spin_rotation (ncocc opt_full) (ncocc opt_frozen) 1 opt_u opt_ub (str "bb")) (mkarr [1; 1] (qs [7]%Z)) (mkarr [1; 1] (qs [7]%Z)).
Proof.
  eexists _, _, _. split; [vm_compute; reflexivity|]. split; [vm_compute; reflexivity|]. split; [vm_compute; reflexivity|]. split; [vm_compute; reflexivity|].
  intros (_ & _ & H). specialize (H [0; 0] ltac:(repeat constructor)). apply (f_equal Qcanon.this) in H. vm_compute in H. discriminate.
Qed.
Print Assumptions C41_unrestricted_refuted.
(** Amplitudes handed to the function are not looked at: those of the calculation are rotated instead. *)
Theorem C41_argument_refuted : exists given d, dget pystr_eq_dec (str "t1") given = Some (VArr (mkarr [1; 2] (qs [5; 6]%Z))) /\
  rg_transform Qc_fld None all_at_once opt_ansatz opt_full true (eye Qc_fld 3) (Some given) opt_amps = Ok d /\
  dget pystr_eq_dec (str "t1") d = Some (VArr (mkarr [1; 2] (qs [1; 2]%Z))).
Proof.
  exists [(str "t1", VArr (mkarr [1; 2] (qs [5; 6]%Z))); (str "t2", VArr (mkarr [1; 1; 2; 2] (qs [0; 0; 0; 0]%Z)))]. eexists.
  split; [vm_compute; reflexivity|]. split; vm_compute; reflexivity.
Qed.
Print Assumptions C41_argument_refuted.
(** C41: ansatze with bosonic amplitudes are refused. *)
Theorem C41_bosons_refused : forall (F : fld) method path_of a sp sa sb rspin (u ua ub : arr F) given cur bs cs,
  bosonic_cluster_ranks a Wt = Ok bs -> coupling_cluster_ranks a Wt = Ok cs -> bs <> [] \/ cs <> [] ->
  (forall d, rg_transform F method path_of a sp rspin u given cur <> Ok d) /\ (forall d, u_transform F method path_of a sa sb ua ub given cur <> Ok d).
Proof. exact transform_bosons. Qed.
Print Assumptions C41_bosons_refused.
Example C41_bosons_case : exists bs cs, bosonic_cluster_ranks ex_ansatz Wt = Ok bs /\ coupling_cluster_ranks ex_ansatz Wt = Ok cs /\ bs <> [] /\ cs <> [].
Proof. eexists _, _. split; [vm_compute; reflexivity|]. split; [vm_compute; reflexivity|]. split; discriminate. Qed.

(** C57, restricted and general, for any number of cycles with any single amplitudes: the optimised coefficients are orthonormal in
    every metric the initial ones are orthonormal in, and the columns of frozen orbitals are the initial ones. *)
Theorem C57_orbitals_stay_orthonormal : forall (F : fld) (expm logm : arr F -> arr F) det_negative (D : Type) damp okd method sp nao (mo0 : arr F) (d : D) t1s,
  matrix_functions expm logm det_negative -> accelerator damp (antisymmetric (ncorr sp)) okd -> accepted sp -> matrix nao (nmo sp) mo0 -> okd d ->
  Forall (matrix (ncocc sp) (ncvir sp)) t1s ->
  exists mo', brueckner_orbitals F expm logm det_negative damp method sp mo0 d t1s = Ok mo' /\ matrix nao (nmo sp) mo' /\
    (forall m p, (m < nao)%nat -> (p < nmo sp)%nat -> is_frozen sp p = true -> el mo' m p = el mo0 m p) /\
    (forall s, orthonormal s nao (nmo sp) mo0 -> orthonormal s nao (nmo sp) mo').
Proof. exact orbitals_orthonormal. Qed.
Print Assumptions C57_orbitals_stay_orthonormal.
(** C57, both spins, which may have different numbers of correlated orbitals. *)
Theorem C57_unrestricted : forall (F : fld) (expm logm : arr F -> arr F) det_negative, matrix_functions expm logm det_negative -> proper_determinants expm det_negative ->
  forall (D : Type) damp okd method sa sb nao (moa mob : arr F) (d : D) t1s, accelerator damp (both_antisymmetric (ncorr sa) (ncorr sb)) okd ->
  accepted sa -> accepted sb -> matrix nao (nmo sa) moa -> matrix nao (nmo sb) mob -> okd d ->
  Forall (fun t => matrix (ncocc sa) (ncvir sa) (fst t) /\ matrix (ncocc sb) (ncvir sb) (snd t)) t1s ->
  exists moa' mob', u_brueckner_orbitals F expm logm det_negative damp method sa sb moa mob d t1s = Ok (moa', mob') /\
    matrix nao (nmo sa) moa' /\ matrix nao (nmo sb) mob' /\
    (forall m p, (m < nao)%nat -> (p < nmo sa)%nat -> is_frozen sa p = true -> el moa' m p = el moa m p) /\
    (forall m p, (m < nao)%nat -> (p < nmo sb)%nat -> is_frozen sb p = true -> el mob' m p = el mob m p) /\
    (forall s, orthonormal s nao (nmo sa) moa -> orthonormal s nao (nmo sa) moa') /\
    (forall s, orthonormal s nao (nmo sb) mob -> orthonormal s nao (nmo sb) mob').
Proof. exact u_orbitals_orthonormal. Qed.
Print Assumptions C57_unrestricted.
Example C57_case : matrix_functions opt_exp opt_log opt_det /\ proper_determinants opt_exp opt_det /\ (forall P, accelerator opt_plain P (fun _ => True)) /\ accepted opt_frozen /\ accepted opt_full /\
  matrix 3 (nmo opt_frozen) opt_mo /\ Forall (matrix (ncocc opt_frozen) (ncvir opt_frozen)) [opt_t1 1 2; opt_t1 1 3] /\
  (exists mo', brueckner_orbitals Qc_fld opt_exp opt_log opt_det opt_plain None opt_frozen opt_mo tt [opt_t1 1 2; opt_t1 1 3] = Ok mo' /\
     map Qcanon.this (dat mo') = [3 # 5; -4 # 5; 0; 4 # 5; 3 # 5; 0; 0; 0; 1]%Q) /\
  (exists r, u_brueckner_orbitals Qc_fld opt_exp opt_log opt_det opt_plain None opt_frozen opt_full opt_mo opt_mo tt [(opt_t1 1 2, opt_t1 2 1)] = Ok r /\
     map Qcanon.this (dat (fst r)) = [3 # 5; -4 # 5; 0; 4 # 5; 3 # 5; 0; 0; 0; 1]%Q).
Proof.
  split; [exact opt_functions|]. split; [exact opt_determinants|]. split; [exact opt_plain_ok|]. split; [exact opt_frozen_accepted|]. split; [exact opt_full_accepted|].
  split; [split; vm_compute; reflexivity|]. split; [repeat constructor; vm_compute; reflexivity|].
  split; (eexists; split; [vm_compute; reflexivity|vm_compute; reflexivity]).
Qed.
