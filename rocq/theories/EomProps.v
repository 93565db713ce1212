(** The equation-of-motion solvers (ebcc/eom): C44, C45, C46.
    [excitations a rspin x fs] says that the ansatz has the (name, index letters, rank) triples [fs] in sector [x] and neither
    bosonic nor coupling excitations. *)
From Coq Require Import Sorted String.
From Verif Require Import Base Alg ArrModel PermSpec TensorSpec SpaceModel AnsatzModel VecModel VecSpec CcModel CcSpec CcEx DavSpec DavEx EomModel EomSpec EomThms EomVec EomDiag EomGuess EomEx.
Local Open Scope string_scope.
Local Open Scope list_scope.
Local Open Scope nat_scope.

(** C44, restricted: for the vectors of one length, writing the amplitudes read from a vector gives the vector back, and reading
    the vector written from a complete set of amplitudes gives the amplitudes back. *)
Theorem C44_restricted : forall (K : rng) a sp x fs, excitations a true x fs ->
  exists size,
    (forall v, length v = size -> exists amps, r_eom_from_vector K a sp x v = Ok amps /\
       eom_namespace (r_amplitude sp) fs amps /\ r_eom_to_vector K a sp x amps = Ok v) /\
    (forall amps, eom_namespace (r_amplitude sp) fs amps -> exists v amps', r_eom_to_vector K a sp x amps = Ok v /\
       length v = size /\ r_eom_from_vector K a sp x v = Ok amps' /\ same_namespace amps' amps).
Proof. intros K a sp x fs H. exact (r_round K sp H). Qed.
Print Assumptions C44_restricted.

(** C44, general: likewise for antisymmetric amplitudes. *)
Theorem C44_general : forall (K : rng) a sp x fs, excitations a false x fs ->
  exists size,
    (forall v, length v = size -> exists amps, g_eom_from_vector K a sp x v = Ok amps /\
       eom_namespace (g_amplitude sp) fs amps /\ g_eom_to_vector K a sp x amps = Ok v) /\
    (no_two_torsion K -> forall amps, eom_namespace (g_amplitude sp) fs amps -> exists v amps', g_eom_to_vector K a sp x amps = Ok v /\
       length v = size /\ g_eom_from_vector K a sp x v = Ok amps' /\ same_namespace amps' amps).
Proof. intros K a sp x fs H. exact (g_round K sp H). Qed.
Print Assumptions C44_general.

(** C44, unrestricted: what is read from a vector is the set of amplitudes that the vector was written from, each spin component
    divided by the number of times the most frequent spin occurs among its first [n] letters.  A vector of any other length is refused. *)
Theorem C44_unrestricted_partial : forall (F : fld) a sa sb x fs, excitations a false x fs -> adapted x fs -> exists size,
  (forall v, length v = size -> exists amps amps', eom_namespace (u_amplitude x sa sb) fs amps /\
     u_eom_to_vector F a sa sb x amps = Ok v /\ u_eom_from_vector F a sa sb x v = Ok amps' /\ divided_by_spin fs amps amps') /\
  (forall v, is_ok (u_eom_from_vector F a sa sb x v) = true -> length v = size) /\
  (no_two_torsion F -> forall amps, eom_namespace (u_amplitude x sa sb) fs amps -> exists v amps0 amps', u_eom_to_vector F a sa sb x amps = Ok v /\
     length v = size /\ same_namespace amps0 amps /\ u_eom_from_vector F a sa sb x v = Ok amps' /\ divided_by_spin fs amps0 amps').
Proof. intros F a sa sb x fs H HA. exact (u_round F sa sb H HA). Qed.
Print Assumptions C44_unrestricted_partial.

(** C44 as stated fails for the unrestricted solver: with CCSD the ionisation vector of ones is read and written as another vector. *)
Theorem C44_unrestricted_refuted : exists (a : ansatz) (sa sb : space) (x : sector) (fs : list entry) (v w : list Qc_fld) amps,
  excitations a false x fs /\ adapted x fs /\
  u_eom_from_vector Qc_fld a sa sb x v = Ok amps /\ u_eom_to_vector Qc_fld a sa sb x amps = Ok w /\ w <> v.
Proof.
  destruct (checked_ok _ _ _ ones_changed) as (amps & w & E1 & E2 & N).
  exists exe_ansatz, ex_space, ex_space, IP, (exe_fs IP), ones, w, amps. exact (conj (exe_exc false IP) (conj (exe_adapted IP) (conj E1 (conj E2 N)))).
Qed.
Print Assumptions C44_unrestricted_refuted.

(** C44: an ansatz with bosonic or coupling excitations is refused in both directions. *)
Theorem C44_bosons_refused : forall (F : fld) a sp sa sb x amps v,
  (forall bs, bosonic_cluster_ranks a (which_of x) = Ok bs -> bs <> []) \/ (1 <= frank a /\ 1 <= brank a) ->
  is_ok (r_eom_to_vector F a sp x amps) = false /\ is_ok (g_eom_to_vector F a sp x amps) = false /\ is_ok (u_eom_to_vector F a sa sb x amps) = false /\
  is_ok (r_eom_from_vector F a sp x v) = false /\ is_ok (g_eom_from_vector F a sp x v) = false /\ is_ok (u_eom_from_vector F a sa sb x v) = false.
Proof. intros F a sp sa sb x amps v H. exact (bosons_refused F a sp sa sb x amps v H). Qed.
Print Assumptions C44_bosons_refused.
Example C44_hypotheses_met : (forall rspin x, excitations exe_ansatz rspin x (exe_fs x)) /\ (forall x, adapted x (exe_fs x)) /\
  (1 <= frank ex_ansatz /\ 1 <= brank ex_ansatz).
Proof. split; [exact exe_exc|]. split; [exact exe_adapted|]. split; cbn; lia. Qed.

(** C45, restricted: the diagonal is, component by component, the sum of occupied minus virtual orbital energies, negated for neutral
    excitations only. *)
Theorem C45_restricted : forall (F : fld) (c : cc F) x fs sz eps, excitations (cc_ansatz c) true x fs -> known_energies c fs sz eps ->
  exists v parts, r_diag c x = Ok v /\ r_eom_to_vector F (cc_ansatz c) (cc_space c) x parts = Ok v /\
    forall name key n, In (name, key, n) fs -> exists D, dget pystr_eq_dec name parts = Some (VArr D) /\
      holds_signed (match x with IP => false | EA => false | EE => true end) (map sz key) (denominator sz eps key) D.
Proof. intros F c x fs sz eps H HK. destruct (r_diag_ok H HK) as (v & parts & R). exists v, parts. destruct x; exact R. Qed.
Print Assumptions C45_restricted.
(** C45, general: negated for electron attachment and for neutral excitations. *)
Theorem C45_general : forall (F : fld) (c : cc F) x fs sz eps, excitations (cc_ansatz c) false x fs -> known_energies c fs sz eps ->
  exists v parts, g_diag c x = Ok v /\ g_eom_to_vector F (cc_ansatz c) (cc_space c) x parts = Ok v /\
    forall name key n, In (name, key, n) fs -> exists D, dget pystr_eq_dec name parts = Some (VArr D) /\
      holds_signed (match x with IP => false | EA => true | EE => true end) (map sz key) (denominator sz eps key) D.
Proof. intros F c x fs sz eps H HK. destruct (g_diag_ok H HK) as (v & parts & R). exists v, parts. destruct x; exact R. Qed.
Print Assumptions C45_general.
(** C45, unrestricted: negated for electron attachment only. *)
Theorem C45_unrestricted : forall (F : fld) (c : ucc F) x fs sz eps, excitations (u_ansatz c) false x fs -> adapted x fs -> u_known_energies c fs sz eps ->
  exists v parts, u_diag c x = Ok v /\ u_eom_to_vector F (u_ansatz c) (u_alpha c) (u_beta c) x parts = Ok v /\
    forall name key n spin, In (name, key, n) fs -> In spin (u_spins x n) -> exists d D,
      dget pystr_eq_dec name parts = Some (VSpin d) /\ dget pystr_eq_dec spin d = Some D /\
      holds_signed (match x with IP => false | EA => true | EE => false end) (spin_shape_of sz key spin) (u_denominator sz eps key spin) D.
Proof. intros F c x fs sz eps H HA HK. destruct (u_diag_ok H HA HK) as (v & parts & R). exists v, parts. destruct x; exact R. Qed.
Print Assumptions C45_unrestricted.

(** C45: for ionisation the unrestricted diagonal of a closed shell agrees, entry by entry, with the restricted one. *)
Theorem C45_ionisation_agrees_partial : forall (F : fld) (c : cc F) (u : ucc F) fr fu sz eps,
  excitations (cc_ansatz c) true IP fr -> excitations (u_ansatz u) false IP fu -> adapted IP fu ->
  known_energies c fr sz eps -> u_known_energies u fu (fun k _ => sz k) (fun k _ => eps k) ->
  exists vr pr vu pu, r_diag c IP = Ok vr /\ r_eom_to_vector F (cc_ansatz c) (cc_space c) IP pr = Ok vr /\
    u_diag u IP = Ok vu /\ u_eom_to_vector F (u_ansatz u) (u_alpha u) (u_beta u) IP pu = Ok vu /\
    forall name key n spin, In (name, key, n) fr -> In (name, key, n) fu -> In spin (u_spins IP n) ->
      exists D d E, dget pystr_eq_dec name pr = Some (VArr D) /\ dget pystr_eq_dec name pu = Some (VSpin d) /\ dget pystr_eq_dec spin d = Some E /\
        shp E = shp D /\ forall idx, inb (shp D) idx -> aget r0 E idx = aget r0 D idx.
Proof. intros F c u fr fu sz eps HR HU HA HK HKu. exact (@closed_shell_agree F c u IP fr fu sz eps eq_refl HR HU HA HK HKu). Qed.
Print Assumptions C45_ionisation_agrees_partial.
(** C45: for ionisation and neutral excitations the general diagonal agrees with the restricted one, where spin orbital [j] of class [k]
    is spatial orbital [p k j]. *)
Theorem C45_spin_orbitals_agree_partial : forall (F : fld) (c g : cc F) x fr fg sz sz' eps eps' (p : nat -> nat -> nat), x = IP \/ x = EE ->
  excitations (cc_ansatz c) true x fr -> excitations (cc_ansatz g) false x fg -> known_energies c fr sz eps -> known_energies g fg sz' eps' ->
  (forall k j, j < sz' k -> p k j < sz k /\ eps' k j = eps k (p k j)) ->
  exists vr pr vg pg, r_diag c x = Ok vr /\ r_eom_to_vector F (cc_ansatz c) (cc_space c) x pr = Ok vr /\
    g_diag g x = Ok vg /\ g_eom_to_vector F (cc_ansatz g) (cc_space g) x pg = Ok vg /\
    forall name key n, In (name, key, n) fr -> In (name, key, n) fg ->
      exists D E, dget pystr_eq_dec name pr = Some (VArr D) /\ dget pystr_eq_dec name pg = Some (VArr E) /\
        forall idx, inb (shp E) idx -> let spatial := map (fun kj => p (fst kj) (snd kj)) (combine key idx) in
          inb (shp D) spatial /\ aget r0 E idx = aget r0 D spatial.
Proof. intros F c g x fr fg sz sz' eps eps' p [-> | ->] HR HG HK HKg HE; [exact (@spin_orbitals_agree F c g IP fr fg sz sz' eps eps' p eq_refl HR HG HK HKg HE)|exact (@spin_orbitals_agree F c g EE fr fg sz sz' eps eps' p eq_refl HR HG HK HKg HE)]. Qed.
Print Assumptions C45_spin_orbitals_agree_partial.
(** C45 as stated fails: for a closed shell the first entry of the diagonal has, for electron attachment, one sign in the restricted solver and
    the other in the general and unrestricted ones; for neutral excitations the unrestricted solver stands alone. *)
Theorem C45_signs_refuted : exists (R G : cc Qc_fld) (U : ucc Qc_fld) fs sz eps szg epsg,
  (forall x, excitations (cc_ansatz R) true x (fs x) /\ excitations (cc_ansatz G) false x (fs x) /\ excitations (u_ansatz U) false x (fs x) /\
     known_energies R (fs x) sz eps /\ u_known_energies U (fs x) (fun k _ => sz k) (fun k _ => eps k) /\ known_energies G (fs x) szg epsg) /\
  (forall k j, j < szg k -> j / 2 < sz k /\ epsg k j = eps k (j / 2)) /\
  exists r g u r' g' u', r_diag R EA = Ok r /\ g_diag G EA = Ok g /\ u_diag U EA = Ok u /\
    hd r0 r = q (-5) /\ hd r0 g = q 5 /\ hd r0 u = q 5 /\
    r_diag R EE = Ok r' /\ g_diag G EE = Ok g' /\ u_diag U EE = Ok u' /\
    hd r0 r' = q 8 /\ hd r0 g' = q 8 /\ hd r0 u' = q (-8).
Proof.
  exists exe_r, exe_g, exe_u, exe_fs, exe_sz, exe_eps, exg_sz, exg_eps. split; [intros x; exact (conj (exe_exc true x) (conj (exe_exc false x) (conj (exe_exc false x) (conj (exe_known_r x) (conj (exe_known_u x) (exe_known_g x))))))|].
  split; [exact exe_spatial|]. pose proof diag_heads as H. repeat (apply andb_prop in H; destruct H as [H ?]).
  repeat match goal with E : qhead _ _ = true |- _ => apply qhead_ok in E; destruct E as (? & ? & _ & ?) end.
  do 6 eexists. repeat (split; [eassumption|]). eassumption.
Qed.
Print Assumptions C45_signs_refuted.
Example C45_hypotheses_met : forall x, excitations (cc_ansatz exe_r) true x (exe_fs x) /\ known_energies exe_r (exe_fs x) exe_sz exe_eps /\
  excitations (u_ansatz exe_u) false x (exe_fs x) /\ adapted x (exe_fs x) /\ u_known_energies exe_u (exe_fs x) (fun k _ => exe_sz k) (fun k _ => exe_eps k) /\
  known_energies exe_g (exe_fs x) exg_sz exg_eps.
Proof. intros x. exact (conj (exe_exc true x) (conj (exe_known_r x) (conj (exe_exc false x) (conj (exe_adapted x) (conj (exe_known_u x) (exe_known_g x)))))). Qed.

(** C46: the guesses are pairwise orthogonal unit vectors, as many as roots are requested or entries are searched, at the preferred
    positions of the diagonal: smallest entries (in magnitude for the charged sectors), the earlier of equal ones, in this order. *)
Theorem C46_guesses : forall (F : fld) (ltb : F -> F -> bool), strict_order ltb ->
  forall x koopmans nroots diag, 0 < nroots -> 0 < searched koopmans (length diag) ->
  exists g pos, get_guesses F ltb x koopmans nroots diag = Ok g /\ length g = Nat.min nroots (searched koopmans (length diag)) /\ length pos = length g /\
    (forall i, i < length g -> nth i pos 0 < searched koopmans (length diag) /\ is_unit_vector (length diag) (nth i pos 0) (nth i g [])) /\
    orthonormal_set (length diag) g /\ StronglySorted (preferred ltb (guess_key ltb x diag)) pos /\
    forall p q, In p pos -> q < searched koopmans (length diag) -> ~ In q pos -> preferred ltb (guess_key ltb x diag) p q.
Proof. intros F ltb HO x koopmans nroots diag Hr Hm. exact (guesses_ok HO x koopmans diag Hr Hm). Qed.
Print Assumptions C46_guesses.
Example C46_hypotheses_met : strict_order (F := Qc_fld) qlt /\ 0 < searched (Some 2) (length (qs [3; 1; 2]%Z)) /\
  guess_key qlt IP (qs [-3; 1; 2]%Z) 0 = q 3.
Proof. split; [exact qlt_order|]. split; [cbn; lia|]. apply qeqb_eq. vm_compute. reflexivity. Qed.
(** C46: without a root or an entry to search, the call raises ValueError. *)
Theorem C46_no_guess : forall (F : fld) (ltb : F -> F -> bool) x koopmans nroots diag,
  nroots = 0 \/ searched koopmans (length diag) = 0 -> get_guesses F ltb x koopmans nroots diag = Err ValueError.
Proof. intros F ltb x koopmans nroots diag H. exact (@guesses_none F ltb x koopmans nroots diag H). Qed.
Print Assumptions C46_no_guess.
(** C46 as stated fails with the Koopmans option: fewer guesses than min(nroots, diag.size). *)
Theorem C46_koopmans_refuted : exists (x : sector) n1 nroots (diag : list Qc_fld) g,
  0 < n1 /\ n1 <= length diag /\ get_guesses Qc_fld qlt x (Some n1) nroots diag = Ok g /\ length g < Nat.min nroots (length diag).
Proof.
  destruct (qguess_ok (get_guesses Qc_fld qlt IP (Some 1) 3 (qs [2; 5; 4; 7]%Z)) 1 koopmans_fewer) as (g & E & L). exists IP, 1, 3, (qs [2; 5; 4; 7]%Z), g. split; [lia|]. split; [cbn; lia|]. split; [exact E|]. rewrite L. cbn. lia.
Qed.
Print Assumptions C46_koopmans_refuted.
