(** Theorems for C33 (amplitude updates), C34 (density matrices), C35 (energy denominators) and C49
    (the coherent-state shift).  [Wt] selects amplitudes, [Wl] lambdas. *)
From Coq Require Import String.
From Coq Require Qcanon.
From Verif Require Import Base Alg ArrModel PermModel TensorSpec EinsumModel SpaceModel AnsatzModel VecModel VecSpec VecThms
  CcModel CcSpec CcProofs CcThms CcUThms CcFix CcRdm CcShift CcEx CcMerge.
Local Open Scope string_scope.
Local Open Scope list_scope.
Local Open Scope nat_scope.

(** C33, restricted ([rspin = true]) and general: given the residuals [res] under the names the
    generated code uses ("t1new", ...), the new amplitudes are the old ones plus residual over
    denominator, element by element, in every block of the ansatz.  With [keep = false], which is
    how perturbative lambdas are computed, the old ones are left out. *)
Theorem C33_jacobi_step : forall (F : fld) (c : cc F) rspin w keep sz eps old res l,
  w = Wt \/ w = Wl -> frank (cc_ansatz c) <= 1 -> distinct_names (cc_ansatz c) rspin w ->
  clusters (cc_ansatz c) rspin w l -> (forall name key, In (name, key) l -> length key <= 26) ->
  energies_known (cc_omega c) (cc_fock c) l sz eps -> holds_blocks (str "new") l sz res ->
  (keep = true -> holds_blocks [] l sz old) ->
  exists out, rg_update c rspin w keep old res = Ok out /\ holds_blocks [] l sz out /\
    forall name key idx, In (name, key) l -> inb (map sz key) idx ->
      block_at out name idx = radd (if keep then block_at old name idx else r0)
                                   (fdiv (block_at res (name ++ str "new") idx) (denominator sz eps key idx)).
Proof. exact rg_jacobi. Qed.
Print Assumptions C33_jacobi_step.
(** C33: the amplitudes are unchanged exactly when all residuals vanish. *)
Theorem C33_fixed_points : forall (F : fld) (c : cc F) rspin w sz eps old res l out,
  w = Wt \/ w = Wl -> frank (cc_ansatz c) <= 1 -> distinct_names (cc_ansatz c) rspin w ->
  clusters (cc_ansatz c) rspin w l -> (forall name key, In (name, key) l -> length key <= 26) ->
  energies_known (cc_omega c) (cc_fock c) l sz eps -> holds_blocks (str "new") l sz res -> holds_blocks [] l sz old ->
  (forall name key idx, In (name, key) l -> inb (map sz key) idx -> denominator sz eps key idx <> r0) ->
  rg_update c rspin w true old res = Ok out ->
  (forall name, dget pystr_eq_dec name out = dget pystr_eq_dec name old) <->
  (forall name key idx, In (name, key) l -> inb (map sz key) idx -> block_at res (name ++ str "new") idx = r0).
Proof. exact rg_fixed. Qed.
Print Assumptions C33_fixed_points.
Example C33_case : frank (cc_ansatz ex_cc) <= 1 /\ distinct_names (cc_ansatz ex_cc) true Wt /\
  clusters (cc_ansatz ex_cc) true Wt ex_l /\ (forall name key, In (name, key) ex_l -> length key <= 26) /\
  energies_known (cc_omega ex_cc) (cc_fock ex_cc) ex_l ex_sz ex_eps /\ holds_blocks (str "new") ex_l ex_sz (ex_data (str "new") 4) /\
  holds_blocks [] ex_l ex_sz (ex_data [] 5) /\
  (forall name key idx, In (name, key) ex_l -> inb (map ex_sz key) idx -> denominator ex_sz ex_eps key idx <> r0) /\
  exists out, rg_update ex_cc true Wt true (ex_data [] 5) (ex_data (str "new") 4) = Ok out.
Proof.
  split; [apply le_n|]. split; [eapply (@named_ready (str "CCSD-S-1-1") false); [vm_compute; tauto|vm_compute; reflexivity|left; reflexivity]|].
  split; [exact ex_clusters|]. split.
  { intros name key H. unfold ex_l in H. cbn [In] in H. destruct H as [E|[E|[E|[E|[]]]]]; apply pair_equal_spec in E; destruct E as [<- <-]; vm_compute; lia. }
  split; [exact ex_energies|]. split; [apply ex_holds; right; reflexivity|]. split; [apply ex_holds; left; reflexivity|]. split; [exact ex_denominators|].
  eexists. vm_compute. reflexivity.
Qed.

(** C33, unrestricted: the same in every spin block of antisymmetric amplitudes and residuals, except
    that fermionic blocks are multiplied by [antisymmetriser_scale]: the product of [m!] over
    [2^(m-1)] for every group of [m] axes of equal letter and spin. *)
Theorem C33_unrestricted_jacobi_step_partial : forall (F : fld) (c : ucc F) w sz eps old res fs bs cs,
  w = Wt \/ w = Wl -> frank (u_ansatz c) <= 1 -> distinct_names (u_ansatz c) false w ->
  fermionic_cluster_ranks (u_ansatz c) false w = Ok fs -> bosonic_cluster_ranks (u_ansatz c) w = Ok bs ->
  coupling_cluster_ranks (u_ansatz c) w = Ok cs ->
  let l := fermionic_blocks fs ++ bosonic_blocks bs ++ coupling_blocks cs in
  (forall name key stored spins, In (name, key, stored, spins) l -> length key <= 26) ->
  u_energies_known (u_omega c) (u_fock c) l sz eps -> u_holds (str "new") l sz res -> u_holds [] l sz old ->
  u_antisymmetric (str "new") (fermionic_blocks fs) res -> u_antisymmetric [] (fermionic_blocks fs) old ->
  exists out, u_update c w old res = Ok out /\ u_holds [] l sz out /\ u_antisymmetric [] (fermionic_blocks fs) out /\
    (forall name key stored spins idx, In (name, key, stored, spins) (fermionic_blocks fs) -> inb (spin_shape_of sz key spins) idx ->
       u_block_at out name stored idx = rmul (antisymmetriser_scale key spins)
         (radd (u_block_at old name stored idx) (fdiv (u_block_at res (name ++ str "new") stored idx) (u_denominator sz eps key spins idx)))) /\
    (forall name key stored spins idx, In (name, key, stored, spins) (bosonic_blocks bs ++ coupling_blocks cs) -> inb (spin_shape_of sz key spins) idx ->
       u_block_at out name stored idx = rmul r1
         (radd (u_block_at old name stored idx) (fdiv (u_block_at res (name ++ str "new") stored idx) (u_denominator sz eps key spins idx)))).
Proof. exact u_jacobi. Qed.
Print Assumptions C33_unrestricted_jacobi_step_partial.
(** C33: the factor is one when no three axes share letter and spin, as for singles and doubles. *)
Theorem C33_singles_doubles_scale : forall (F : fld) key spins, @two F <> r0 ->
  (forall m, In m (spin_multiplicities key spins) -> m <= 2) -> @antisymmetriser_scale F key spins = r1.
Proof. exact scale_one. Qed.
Print Assumptions C33_singles_doubles_scale.
Theorem C33_unrestricted_fixed_points_partial : forall (F : fld) (c : ucc F) w sz eps old res fs bs cs out, @two F <> r0 ->
  w = Wt \/ w = Wl -> frank (u_ansatz c) <= 1 -> distinct_names (u_ansatz c) false w ->
  fermionic_cluster_ranks (u_ansatz c) false w = Ok fs -> bosonic_cluster_ranks (u_ansatz c) w = Ok bs ->
  coupling_cluster_ranks (u_ansatz c) w = Ok cs ->
  let l := fermionic_blocks fs ++ bosonic_blocks bs ++ coupling_blocks cs in
  (forall name key stored spins, In (name, key, stored, spins) l -> length key <= 26) ->
  u_energies_known (u_omega c) (u_fock c) l sz eps -> u_holds (str "new") l sz res -> u_holds [] l sz old ->
  u_antisymmetric (str "new") (fermionic_blocks fs) res -> u_antisymmetric [] (fermionic_blocks fs) old ->
  (forall name key stored spins idx, In (name, key, stored, spins) l -> inb (spin_shape_of sz key spins) idx ->
     u_denominator sz eps key spins idx <> r0) ->
  (forall name key stored spins m, In (name, key, stored, spins) (fermionic_blocks fs) -> In m (spin_multiplicities key spins) -> m <= 2) ->
  u_update c w old res = Ok out ->
  (forall name key stored spins idx, In (name, key, stored, spins) l -> inb (spin_shape_of sz key spins) idx ->
     u_block_at out name stored idx = u_block_at old name stored idx) <->
  (forall name key stored spins idx, In (name, key, stored, spins) l -> inb (spin_shape_of sz key spins) idx ->
     u_block_at res (name ++ str "new") stored idx = r0).
Proof. exact u_fixed. Qed.
Print Assumptions C33_unrestricted_fixed_points_partial.
Example C33_unrestricted_case : exists out, @two Qc_fld <> r0 /\ frank (u_ansatz exu) <= 1 /\ distinct_names (u_ansatz exu) false Wt /\
  fermionic_cluster_ranks (u_ansatz exu) false Wt = Ok exu_fs /\ bosonic_cluster_ranks (u_ansatz exu) Wt = Ok exu_bs /\
  coupling_cluster_ranks (u_ansatz exu) Wt = Ok exu_cs /\
  (forall name key stored spins, In (name, key, stored, spins) exu_l -> length key <= 26) /\
  u_energies_known (u_omega exu) (u_fock exu) exu_l exu_sz exu_eps /\
  u_holds (str "new") exu_l exu_sz (exu_data (str "new") 4) /\ u_holds [] exu_l exu_sz (exu_data [] 4) /\
  u_antisymmetric (str "new") (fermionic_blocks exu_fs) (exu_data (str "new") 4) /\ u_antisymmetric [] (fermionic_blocks exu_fs) (exu_data [] 4) /\
  (forall name key stored spins idx, In (name, key, stored, spins) exu_l -> inb (spin_shape_of exu_sz key spins) idx ->
     u_denominator exu_sz exu_eps key spins idx <> r0) /\
  (forall name key stored spins m, In (name, key, stored, spins) (fermionic_blocks exu_fs) -> In m (spin_multiplicities key spins) -> m <= 2) /\
  u_update exu Wt (exu_data [] 4) (exu_data (str "new") 4) = Ok out.
Proof.
  assert (A : forallb (fun b : ublock => let '(_, key, _, spins) := b in (length key <=? 26) && forallb (fun m => m <=? 2) (spin_multiplicities key spins)) exu_l = true)
    by (vm_compute; reflexivity). rewrite forallb_forall in A.
  eexists. split; [vm_compute; discriminate|]. split; [apply le_n|].
  split; [eapply (@named_ready (str "CCSD-S-1-1") false); [vm_compute; tauto|vm_compute; reflexivity|left; reflexivity]|].
  split; [exact (proj1 exu_ranks)|]. split; [exact (proj1 (proj2 exu_ranks))|]. split; [exact (proj2 (proj2 exu_ranks))|].
  split. { intros name key stored spins H. specialize (A _ H). cbv beta iota in A. apply andb_true_iff in A. apply Nat.leb_le, A. }
  split; [exact exu_energies|]. split; [apply exu_holds; auto|]. split; [apply exu_holds; auto|]. split; [apply exu_holds; auto|]. split; [apply exu_holds; auto|].
  split; [exact exu_denominators|].
  split. { intros name key stored spins m H Hm. assert (H' : In (name, key, stored, spins) exu_l) by (unfold exu_l; apply in_or_app; left; exact H).
    specialize (A _ H'). cbv beta iota in A. apply andb_true_iff in A. destruct A as [_ A]. rewrite forallb_forall in A. apply Nat.leb_le, A, Hm. }
  vm_compute. reflexivity.
Qed.
(** C33 fails for unrestricted triples: with a vanishing residual the update multiplies the all-alpha
    amplitudes by 9/4. *)
Theorem C33_unrestricted_triples_refuted : exists (c : ucc Qc_fld) sz (eps : nat -> nat -> nat -> Qc_fld) old res fs out idx,
  fermionic_cluster_ranks (u_ansatz c) false Wt = Ok fs /\ u_holds [] (fermionic_blocks fs) sz old /\ u_antisymmetric [] (fermionic_blocks fs) old /\
  (forall name key stored spins idx, In (name, key, stored, spins) (fermionic_blocks fs) -> inb (spin_shape_of sz key spins) idx ->
     u_denominator sz eps key spins idx <> r0) /\
  (forall name key stored spins idx, In (name, key, stored, spins) (fermionic_blocks fs) -> inb (spin_shape_of sz key spins) idx ->
     u_block_at res (name ++ str "new") stored idx = r0) /\
  u_update c Wt old res = Ok out /\
  u_block_at old (str "t3") (Some (str "aaaaaa")) idx = q 1 /\
  u_block_at out (str "t3") (Some (str "aaaaaa")) idx = fdiv (q 9) (q 4).
Proof. exact triples_scaled. Qed.
Print Assumptions C33_unrestricted_triples_refuted.

(** C33, restricted and general: perturbative lambdas given to an update are taken in place of lambdas of the
    same name and every other lambda is kept; the residuals are computed from the result, which the caller's namespace of
    lambdas holds afterwards.  Without perturbative lambdas the caller's namespace is unchanged. *)
Theorem C33_perturbative_lambdas_merged : forall (F : fld) (c : cc F) func (l p : dict pystr (tval F)) perturbative,
  NoDup (map fst p) ->
  (forall x, dget pystr_eq_dec x (snd (r_update_lams c func l (Some p) perturbative)) =
             match dget pystr_eq_dec x p with Some v => Some v | None => dget pystr_eq_dec x l end) /\
  snd (g_update_lams c func l (Some p) perturbative) = snd (r_update_lams c func l (Some p) perturbative) /\
  (forall func', func perturbative (snd (r_update_lams c func l (Some p) perturbative)) = func' perturbative (snd (r_update_lams c func l (Some p) perturbative)) ->
     r_update_lams c func' l (Some p) perturbative = r_update_lams c func l (Some p) perturbative /\
     g_update_lams c func' l (Some p) perturbative = g_update_lams c func l (Some p) perturbative) /\
  snd (r_update_lams c func l None perturbative) = l /\ snd (g_update_lams c func l None perturbative) = l.
Proof. exact merged_multipliers. Qed.
Print Assumptions C33_perturbative_lambdas_merged.
Example C33_merged_case : NoDup (map fst [(str "l3", VArr (mkarr [1] [q 5]))]) /\ snd (r_update_lams ex_cc (fun _ x => Ok x) [(str "l1", VArr (mkarr [1] [q 1])); (str "l3", VArr (mkarr [1] [q 2]))] (Some [(str "l3", VArr (mkarr [1] [q 5]))]) false) =
  [(str "l1", VArr (mkarr [1] [q 1])); (str "l3", VArr (mkarr [1] [q 5]))].
Proof. split; [repeat constructor; intros []|reflexivity]. Qed.

(** C34: the one-body density matrix is symmetric whatever the generated code returns; its diagonal
    is kept; hermitising again changes nothing, and a symmetric matrix is kept. *)
Theorem C34_one_body : forall (F : fld) (dm : arr F) n, @two F <> r0 -> wf dm -> shp dm = [n; n] ->
  exists r, hermitise1 dm = Ok r /\ wf r /\ shp r = [n; n] /\
    (forall i j, i < n -> j < n -> aget r0 r [i; j] = aget r0 r [j; i]) /\
    (forall i, i < n -> aget r0 r [i; i] = aget r0 dm [i; i]) /\
    hermitise1 r = Ok r /\
    ((forall i j, i < n -> j < n -> aget r0 dm [i; j] = aget r0 dm [j; i]) -> r = dm).
Proof. exact herm1_spec. Qed.
Print Assumptions C34_one_body.
Theorem C34_two_body : forall (F : fld) (dm : arr F) n, @two F <> r0 -> wf dm -> shp dm = [n; n; n; n] ->
  exists r, hermitise2 dm = Ok r /\ wf r /\ shp r = [n; n; n; n] /\ exchange_symmetric n r /\ braket_symmetric n n r /\
    hermitise2 r = Ok r /\ (exchange_symmetric n dm -> braket_symmetric n n dm -> r = dm).
Proof. exact herm2_spec. Qed.
Print Assumptions C34_two_body.
(** C34, unrestricted: the same-spin blocks have both symmetries and the mixed block the bra-ket symmetry. *)
Theorem C34_two_body_unrestricted : forall (F : fld) (aaaa aabb bbbb : arr F) n m, @two F <> r0 ->
  wf aaaa -> wf aabb -> wf bbbb -> shp aaaa = [n; n; n; n] -> shp aabb = [n; n; m; m] -> shp bbbb = [m; m; m; m] ->
  exists x y z, u_hermitise2 aaaa aabb bbbb = Ok (x, y, z) /\ exchange_symmetric n x /\ braket_symmetric n n x /\
    shp y = [n; n; m; m] /\ braket_symmetric n m y /\ exchange_symmetric m z /\ braket_symmetric m m z /\
    u_hermitise2 x y z = Ok (x, y, z).
Proof. exact u_herm2_spec. Qed.
Print Assumptions C34_two_body_unrestricted.
(** C34: the two parts of the electron-boson density matrix are transposes of each other. *)
Theorem C34_electron_boson : forall (F : fld) (c d : arr F) b n, @two F <> r0 -> wf c -> wf d -> shp c = [b; n; n] -> shp d = [b; n; n] ->
  exists x y, hermitise_eb (c, d) = Ok (x, y) /\ shp x = [b; n; n] /\ shp y = [b; n; n] /\
    (forall I i j, I < b -> i < n -> j < n -> aget r0 y [I; i; j] = aget r0 x [I; j; i]) /\ hermitise_eb (x, y) = Ok (x, y).
Proof. exact eb_spec. Qed.
Print Assumptions C34_electron_boson.
Example C34_case : @two Qc_fld <> r0 /\ hermitise1 (mkarr [2; 2] (qs [1; 2; 4; 3]%Z)) = Ok (mkarr [2; 2] (qs [1; 3; 3; 3]%Z)).
Proof. split; [vm_compute; discriminate|apply qcheck_ok; vm_compute; reflexivity]. Qed.

(** C35: the denominator of every non-empty subscript of at most 26 letters is the sum over its
    letters of the signed energies ([axis_of] gives a letter's sign, extent and energies). *)
Theorem C35_restricted_general : forall (F : fld) (c : cc F) sub signs axes, sub <> [] -> length sub <= 26 ->
  Forall2 (axis_of signs (cc_omega c) (cc_fock c)) sub axes -> exists D, energy_sum c sub signs = Ok D /\ direct_sum axes D.
Proof. exact energy_sum_ok. Qed.
Print Assumptions C35_restricted_general.
Theorem C35_unrestricted : forall (F : fld) (c : ucc F) sub spins signs axes,
  sub <> [] -> length sub <= 26 -> length spins = length sub ->
  Forall2 (fun ks => axis_of signs (u_omega c) (u_fock c [snd ks; snd ks]) (fst ks)) (combine sub spins) axes ->
  exists D, u_energy_sum c sub spins signs = Ok D /\ direct_sum axes D.
Proof. exact u_energy_sum_ok. Qed.
Print Assumptions C35_unrestricted.
(** C35 fails for longer subscripts, where the letters run out. *)
Theorem C35_long_subscripts_refuted : forall (F : fld) (c : cc F) sub signs axes, 26 < length sub ->
  Forall2 (axis_of signs (cc_omega c) (cc_fock c)) sub axes -> energy_sum c sub signs = Err ValueError.
Proof. exact energy_sum_too_long. Qed.
Print Assumptions C35_long_subscripts_refuted.
Example C35_case : Forall2 (axis_of [] (cc_omega ex_cc) (cc_fock ex_cc)) (str "bov")
    [(false, 2, ex_eps (chr_of "b")); (true, 2, ex_eps (chr_of "o")); (false, 1, ex_eps (chr_of "v"))] /\
  energy_sum ex_cc (str "bov") [] = Ok (mkarr [2; 2; 1] (qs [-11; -10; -12; -11]%Z)).
Proof.
  split; [|apply qcheck_ok; vm_compute; reflexivity].
  constructor; [|constructor; [|constructor; [|constructor]]]; (split; [vm_compute; reflexivity|]; eexists; split; [vm_compute; reflexivity|]; split; [reflexivity|]; split; [reflexivity|reflexivity]).
Qed.

(** C49: [d] is the mean-field drive, the trace of the occupied coupling (times two for restricted). *)
Theorem C49_drive : forall (F : fld) (c : cc F) rspin g boo b n, cc_g c = Some g -> g (str "boo") = Ok boo -> wf boo -> shp boo = [b; n; n] ->
  exists d, drive c rspin = Ok d /\ vec_of b d /\
    forall I, I < b -> aget r0 d [I] = rmul (if rspin then @two F else r1) (rsum (map (fun p => aget r0 boo [I; p; p]) (seq 0 n))).
Proof. exact drive_ok. Qed.
Print Assumptions C49_drive.
Theorem C49_drive_unrestricted : forall (F : fld) (c : ucc F) g x y b n m, u_g c = Some g -> g (str "aa") (str "boo") = Ok x -> g (str "bb") (str "boo") = Ok y ->
  wf x -> shp x = [b; n; n] -> wf y -> shp y = [b; m; m] ->
  exists d, u_drive c = Ok d /\ vec_of b d /\
    forall I, I < b -> aget r0 d [I] = radd (rsum (map (fun p => aget r0 x [I; p; p]) (seq 0 n))) (rsum (map (fun p => aget r0 y [I; p; p]) (seq 0 m))).
Proof. exact u_drive_ok. Qed.
Print Assumptions C49_drive_unrestricted.
(** C49: with the shift, [omega xi] is the total drive (with the bare one if given), the mean-field
    coupling used in the equations vanishes and the constant is the sum of [omega xi^2].  The
    unrestricted class has the same two functions with its own drive. *)
Theorem C49_shifted : forall (F : fld) n w bare, vec_of n w -> (forall b, bare = Some b -> vec_of n b) ->
  forall (drive : result (arr F)) d, drive = Ok d -> vec_of n d -> (forall i, i < n -> aget r0 w [i] <> r0) ->
  exists x G e, xi_of true (Some w) bare drive = Ok x /\ vec_of n x /\
    (forall i, i < n -> rmul (aget r0 w [i]) (aget r0 x [i]) = radd (aget r0 d [i]) (bare_at bare i)) /\
    mean_field_G true (Some w) bare drive = Ok G /\ G = zeros [n] /\
    const true (Some w) (xi_of true (Some w) bare drive) = Ok e /\
    e = rsum (map (fun i => rmul (aget r0 w [i]) (rmul (aget r0 x [i]) (aget r0 x [i]))) (seq 0 n)).
Proof. exact shifted. Qed.
Print Assumptions C49_shifted.
(** C49: without, xi and the constant vanish and the mean-field coupling is the total drive. *)
Theorem C49_unshifted : forall (F : fld) n w bare, vec_of n w -> (forall b, bare = Some b -> vec_of n b) ->
  forall (drive : result (arr F)) d, drive = Ok d -> vec_of n d ->
  xi_of false (Some w) bare drive = Ok (zeros [n]) /\ (forall xi, const false (Some w) xi = Ok (r0 : F)) /\
  exists G, mean_field_G false (Some w) bare drive = Ok G /\ vec_of n G /\
    forall i, i < n -> aget r0 G [i] = radd (aget r0 d [i]) (bare_at bare i).
Proof. exact unshifted. Qed.
Print Assumptions C49_unshifted.
Example C49_case : xi ex_cc true = Ok (mkarr [2] [fdiv (q 10) (q 3); fdiv (q 13) (q 2)]) /\
  get_mean_field_G ex_cc true = Ok (mkarr [2] (qs [0; 0]%Z)) /\
  vec_of 2 (mkarr [2] (qs [3; 4]%Z)) /\ (forall i, i < 2 -> aget r0 (mkarr [2] (qs [3; 4]%Z)) [i] <> r0).
Proof.
  split; [apply qcheck_ok; vm_compute; reflexivity|]. split; [apply qcheck_ok; vm_compute; reflexivity|]. split; [split; reflexivity|].
  intros [|[|i]] H; [vm_compute; discriminate|vm_compute; discriminate|lia].
Qed.
