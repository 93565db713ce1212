(** Theorems for C51 (starting amplitudes) and C54 (starting lambdas). *)
From Coq Require Import String.
From Coq Require Qcanon.
From Verif Require Import Base Alg ArrModel PermModel TensorSpec EinsumModel SpaceModel AnsatzModel VecModel VecSpec VecThms
  CcModel CcSpec CcInit CcUInit CcLam CcEx InitEx.
Local Open Scope string_scope.
Local Open Scope list_scope.
Local Open Scope nat_scope.

(** C51, restricted: [init_amps] returns, for every amplitude of the ansatz, an array of the right
    shape whose elements are the driving element of the Hamiltonian over the denominator; the
    driving element is zero beyond the lowest rank. *)
Theorem C51_restricted : forall (F : fld) (c : cc F) sz eps fs bs cs, init_ready c true sz eps fs bs cs ->
  (forall name k0 k1 k2 k3, In (name, [k0; k1; k2; k3], 2) fs -> available (cc_eris c [k0; k2; k1; k3]) (map sz [k0; k2; k1; k3])) ->
  exists out, r_init_amps c = Ok out /\ first_order (r_driver c) (cc_G c) (cc_g c) sz eps fs bs cs out.
Proof. exact r_init_ok. Qed.
Print Assumptions C51_restricted.
Example C51_restricted_case : exists fs bs cs, init_ready ex_cc true ex_sz ex_eps fs bs cs /\ cs <> [] /\
  (forall name k0 k1 k2 k3, In (name, [k0; k1; k2; k3], 2) fs -> available (cc_eris ex_cc [k0; k2; k1; k3]) (map ex_sz [k0; k2; k1; k3])).
Proof. exact ex_ready. Qed.

(** C51, general: the same with antisymmetrised integrals, provided the rank of the last boson (or,
    without bosons, fermion) amplitude of the ansatz is one exactly when the coupling amplitudes
    carry one boson: the code tests that rank instead. *)
Theorem C51_general_partial : forall (F : fld) (c : cc F) sz eps fs bs cs, init_ready c false sz eps fs bs cs ->
  (forall name key, In (name, key, 2) fs -> available (cc_eris c key) (map sz key)) ->
  (forall name key nf nb, In (name, key, nf, nb) cs -> last_n fs bs = Ok (nb =? 1)) ->
  exists out, g_init_amps c = Ok out /\ first_order (g_driver c) (cc_G c) (cc_g c) sz eps fs bs cs out.
Proof. exact g_init_ok. Qed.
Print Assumptions C51_general_partial.
Example C51_general_case : exists fs bs cs, init_ready ex_cc false ex_sz ex_eps fs bs cs /\ cs <> [] /\
  (forall name key, In (name, key, 2) fs -> available (cc_eris ex_cc key) (map ex_sz key)) /\
  (forall name key nf nb, In (name, key, nf, nb) cs -> last_n fs bs = Ok (nb =? 1)).
Proof. exact ex_ready_g. Qed.
(** Without that proviso it fails: for CCSD-SD-1-1 the coupling amplitudes start from zero although the
    coupling does not vanish (and the restricted class starts from coupling over denominator). *)
Theorem C51_general_coupling_refuted : exists (c : cc Qc_fld) g out out', cc_g c = Some g /\
  at_index (g (str "bov")) [0; 0; 0] = q 1 /\ g_init_amps c = Ok out /\ block_at out (str "u11") [0; 0; 0] = q 0 /\
  r_init_amps c = Ok out' /\ block_at out' (str "u11") [0; 0; 0] = fdiv (q 1) (q (-11)).
Proof.
  exists ex_cc2, ex_g. eexists _, _. split; [reflexivity|]. split; [vm_compute; reflexivity|]. split; [vm_compute; reflexivity|].
  split; [vm_compute; reflexivity|]. split; [vm_compute; reflexivity|]. apply qeqb_eq. vm_compute. reflexivity.
Qed.
Print Assumptions C51_general_coupling_refuted.

(** C51, unrestricted: every spin block, provided that alpha and beta sizes and energies agree if the
    ansatz has coupling amplitudes. *)
Theorem C51_unrestricted_partial : forall (F : fld) (c : ucc F) sz eps fs bs cs, u_init_ready c sz eps fs bs cs ->
  (cs <> [] -> forall k, In k (str "ov") -> sz k (chr_of "a") = sz k (chr_of "b") /\ forall i, eps k (chr_of "a") i = eps k (chr_of "b") i) ->
  exists out, u_init_amps c = Ok out /\ u_first_order c sz eps fs bs cs out.
Proof. exact u_init_ok. Qed.
Print Assumptions C51_unrestricted_partial.
Example C51_unrestricted_case : exists fs bs cs, u_init_ready (ex_u same_fock) ex_u_sz (ex_u_eps same_fock) fs bs cs /\ cs <> [] /\
  forall k, In k (str "ov") -> ex_u_sz k (chr_of "a") = ex_u_sz k (chr_of "b") /\ forall i, ex_u_eps same_fock k (chr_of "a") i = ex_u_eps same_fock k (chr_of "b") i.
Proof.
  destruct (ex_u_ready same_fock (or_intror eq_refl)) as (fs & bs & cs & H & NE & _). exists fs, bs, cs. split; [exact H|]. split; [exact NE|]. intros k _. split; reflexivity.
Qed.
(** Without that proviso it fails: the beta coupling amplitudes are divided by alpha energies. *)
Theorem C51_unrestricted_coupling_refuted : exists (c : ucc Qc_fld) sz eps fs bs cs out, u_init_ready c sz eps fs bs cs /\
  In (str "u11", str "bov", 1, 1) cs /\ u_init_amps c = Ok out /\
  u_eb_driver (u_g c) (str "bov") 1 (str "bb") [0; 0; 0] = q 6 /\ u_denominator sz eps (str "bov") (str "_bb") [0; 0; 0] = q (-9) /\
  u_block_at out (str "u11") (Some (str "bb")) [0; 0; 0] = fdiv (q 6) (q (-5)).
Proof.
  destruct (ex_u_ready ex_u_fock (or_introl eq_refl)) as (fs & bs & cs & H & _ & -> & -> & ->).
  exists (ex_u ex_u_fock), ex_u_sz, (ex_u_eps ex_u_fock), exu_fs, exu_bs, exu_cs. eexists. split; [exact H|]. split; [left; reflexivity|]. split; [vm_compute; reflexivity|].
  split; [vm_compute; reflexivity|]. split; apply qeqb_eq; vm_compute; reflexivity.
Qed.
Print Assumptions C51_unrestricted_coupling_refuted.

(** C54, restricted and general: the lambdas fill the layout of lambda vectors and are the amplitudes with
    bra and ket indices exchanged, up to triple excitations. *)
Theorem C54_transposed_partial : forall (F : fld) a rspin fs bs cs sz (t : dict pystr (tval F)),
  frank a <= 1 -> distinct_names a rspin Wt ->
  fermionic_cluster_ranks a rspin Wt = Ok fs -> bosonic_cluster_ranks a Wt = Ok bs -> coupling_cluster_ranks a Wt = Ok cs ->
  (forall name key n, In (name, key, n) fs -> n <= 3) ->
  holds_blocks [] (map fst fs ++ map fst bs ++ map (fun e => fst (fst e)) cs) sz t ->
  exists out ls, rg_init_lams a rspin t = Ok out /\ clusters a rspin Wl ls /\ holds_blocks [] ls sz out /\ transposed_amplitudes fs bs cs sz t out.
Proof. exact init_lams_ok. Qed.
Print Assumptions C54_transposed_partial.
Example C54_case : frank ex_ansatz <= 1 /\ distinct_names ex_ansatz true Wt /\ fermionic_cluster_ranks ex_ansatz true Wt = Ok exu_fs /\ bosonic_cluster_ranks ex_ansatz Wt = Ok exu_bs /\
  coupling_cluster_ranks ex_ansatz Wt = Ok exu_cs /\ (forall name key n, In (name, key, n) exu_fs -> n <= 3) /\
  holds_blocks [] (map fst exu_fs ++ map fst exu_bs ++ map (fun e => fst (fst e)) exu_cs) ex_sz (ex_data [] 5).
Proof.
  split; [apply le_n|]. split; [eapply (@named_ready (str "CCSD-S-1-1") false); [vm_compute; tauto|vm_compute; reflexivity|left; reflexivity]|].
  split; [vm_compute; reflexivity|]. split; [vm_compute; reflexivity|]. split; [vm_compute; reflexivity|]. split.
  - intros name key n [E|[E|[]]]; apply pair_equal_spec in E; destruct E as [_ <-]; lia.
  - exact (ex_holds [] 5 (or_introl eq_refl)).
Qed.
(** ... and unrestricted. *)
Theorem C54_unrestricted_transposed_partial : forall (F : fld) a fs bs cs sz (t : dict pystr (tval F)),
  let l := fermionic_blocks fs ++ bosonic_blocks bs ++ coupling_blocks cs in
  frank a <= 1 -> distinct_names a false Wt ->
  fermionic_cluster_ranks a false Wt = Ok fs -> bosonic_cluster_ranks a Wt = Ok bs -> coupling_cluster_ranks a Wt = Ok cs ->
  (forall name key n, In (name, key, n) fs -> n <= 3) -> u_holds [] l sz t -> u_only l t ->
  exists out lfs lbs lcs, u_init_lams a t = Ok out /\
    fermionic_cluster_ranks a false Wl = Ok lfs /\ bosonic_cluster_ranks a Wl = Ok lbs /\ coupling_cluster_ranks a Wl = Ok lcs /\
    u_holds [] (fermionic_blocks lfs ++ bosonic_blocks lbs ++ coupling_blocks lcs) sz out /\ u_transposed_amplitudes fs bs cs sz t out.
Proof. exact u_init_lams_ok. Qed.
Print Assumptions C54_unrestricted_transposed_partial.
Example C54_unrestricted_case : u_holds [] (fermionic_blocks exu_fs ++ bosonic_blocks exu_bs ++ coupling_blocks exu_cs) exu_sz (exu_data [] 4) /\
  u_only (fermionic_blocks exu_fs ++ bosonic_blocks exu_bs ++ coupling_blocks exu_cs) (exu_data [] 4).
Proof. split; [apply exu_holds; auto|]. apply u_only_check. vm_compute. reflexivity. Qed.
(** It fails for quadruples: the code that lays out lambda vectors does not exchange bra and ket of
    quadruples, so that the array returned by [init_lams] has the wrong shape for them. *)
Theorem C54_quadruples_refuted : exists a sz (t out : dict pystr (tval Qc_fld)) l ls, clusters a false Wt l /\ holds_blocks [] l sz t /\
  rg_init_lams a false t = Ok out /\ clusters a false Wl ls /\ ~ holds_blocks [] ls sz out.
Proof. exact quadruples_layout. Qed.
Print Assumptions C54_quadruples_refuted.
