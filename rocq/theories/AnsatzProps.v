(** Property theorems for ansatz names and cluster ranks (C22, C23). *)
From Coq Require Import Sorted String.
From Verif Require Import Base AnsatzModel AnsatzSpec AnsatzProofs AnsatzRanks AnsatzKind.
Local Open Scope string_scope.
Local Open Scope list_scope.
Local Open Scope nat_scope.

(** C22: two different method names never have the same identifier. *)
Theorem C22_identifiers_distinct : forall n1 n2, method_name n1 -> method_name n2 ->
  name_to_identifier n1 = name_to_identifier n2 -> n1 = n2.
Proof. exact identifiers_distinct. Qed.
Print Assumptions C22_identifiers_distinct.

Example C22_case_distinct : Forall method_name (map fst named_ansatzes).
Proof. repeat constructor; cbn; intuition discriminate. Qed.

(** C22: the identifier converts back to the name, for names without dash, square brackets and
    the letters w, x, y, p.  Missing: names with a dash, for which it is false (next theorem). *)
Theorem C22_round_trip_partial : forall n, plain_name n -> identifier_to_name (name_to_identifier n) = n.
Proof. exact round_trip. Qed.
Print Assumptions C22_round_trip_partial.

Example C22_case_round_trip : plain_name (str "CCSDt'") /\ plain_name (str "CCSD(T)(Q)") /\ name_to_identifier (str "CCSDt'") = str "CCSDwtwp".
Proof. repeat split; try (vm_compute; intuition lia). Qed.

(** C22: a documented name whose identifier does not convert back. *)
Theorem C22_round_trip_refuted : exists n, In n (map fst named_ansatzes) /\ identifier_to_name (name_to_identifier n) <> n.
Proof. exists (str "CCSD-SD-1-2"). split; [vm_compute; tauto|vm_compute; discriminate]. Qed.
Print Assumptions C22_round_trip_refuted.

(** C22: names outside the bracket discipline do collide. *)
Theorem C22_unbalanced_collision_refuted : exists n1 n2, n1 <> n2 /\ name_to_identifier n1 = name_to_identifier n2.
Proof. exists (str "CCSD(T)"), (str "CCSD)T("). split; [discriminate|reflexivity]. Qed.
Print Assumptions C22_unbalanced_collision_refuted.

(** C22: every documented name builds an ansatz with that name, with or without density fitting. *)
Theorem C22_named_ansatz : forall n df, In n (map fst named_ansatzes) ->
  exists a, from_string n df = Ok a /\ ansatz_name a = (if df then str "DF" else []) ++ n.
Proof. exact named_ok. Qed.
Print Assumptions C22_named_ansatz.
Theorem C22_unknown_name_refused : forall n df, ~ In n (map fst named_ansatzes) -> from_string n df = Err ModelNotImplemented.
Proof. exact unnamed_err. Qed.
Print Assumptions C22_unknown_name_refused.

(** C22: an ansatz is a one-shot energy calculation exactly when each of its two parts is empty or starts with "MP", and it
    has a perturbative correction exactly when one of them has both parentheses; among the documented names these are
    MP2 and MP3, and CCSD(T). *)
Theorem C22_one_shot : forall a, is_one_shot a = true <-> forall s, s = fermion a \/ s = boson a -> s = [] \/ exists r, s = str "MP" ++ r.
Proof. exact one_shot_iff. Qed.
Print Assumptions C22_one_shot.
Theorem C22_perturbative : forall a, has_perturbative a = true <-> exists s, (s = fermion a \/ s = boson a) /\ In (chr_of "(") s /\ In (chr_of ")") s.
Proof. exact perturbative_iff. Qed.
Print Assumptions C22_perturbative.
Theorem C22_named_kinds : forall n df a, In n (map fst named_ansatzes) -> from_string n df = Ok a ->
  (is_one_shot a = true <-> n = str "MP2" \/ n = str "MP3") /\ (has_perturbative a = true <-> n = str "CCSD(T)").
Proof. exact named_kinds. Qed.
Print Assumptions C22_named_kinds.
Example C22_case_kinds : is_one_shot (mka (str "MP2") (str "S") 1 1 false) = false /\ In (str "MP3") (map fst named_ansatzes) /\ from_string (str "MP3") true = Ok (mka (str "MP3") [] 0 0 true).
Proof. split; [reflexivity|split; [right; left; reflexivity|reflexivity]]. Qed.

(** C22: [available_models] does not list the name of every module file: the trailing prime is lost
    and dashes come out as underscores. *)
Theorem C22_available_models_refuted : exists n, In n (map fst named_ansatzes) /\
  listed_name (str "R" ++ name_to_identifier n ++ str ".py") <> str "R" ++ n.
Proof. exists (str "CCSDt'"). split; [vm_compute; tauto|vm_compute; discriminate]. Qed.
Print Assumptions C22_available_models_refuted.

(** C23: for every ansatz string, spin type and sector, the fermionic entries are distinct, sorted by rank, and
    each has the name and index letters of its rank (quadruples only outside IP and EA). *)
Theorem C23_fermionic_entries : forall a rspin w ranks, fermionic_cluster_ranks a rspin w = Ok ranks ->
  NoDup ranks /\ StronglySorted (fun x y : entry => snd x <= snd y) ranks /\ forall e, In e ranks -> entry_ok w e.
Proof. exact fermionic_entries. Qed.
Print Assumptions C23_fermionic_entries.

(** C23: in the IP sector a quadruple keeps both sets of four indices. *)
Theorem C23_quadruple_ip_refuted : exists a ranks e, fermionic_cluster_ranks a false Wip = Ok ranks /\ In e ranks /\ snd e = 4 /\
  num vir_letter (snd (fst e)) = 4.
Proof.
  exists (mka (str "CCSDTQ") [] 0 0 false). eexists. exists (str "r4", str "oooovvvv", 4).
  split; [vm_compute; reflexivity|]. split; [cbn; tauto|]. split; reflexivity.
Qed.
Print Assumptions C23_quadruple_ip_refuted.

(** C23: two different entries have different names unless both are triples.  Missing: triples, for which it
    is false when full and active triples are combined (next theorem). *)
Theorem C23_names_distinct_partial : forall a rspin w ranks e1 e2, fermionic_cluster_ranks a rspin w = Ok ranks ->
  In e1 ranks -> In e2 ranks -> fst (fst e1) = fst (fst e2) -> e1 <> e2 -> snd e1 = 3 /\ snd e2 = 3.
Proof. exact names_distinct. Qed.
Print Assumptions C23_names_distinct_partial.
Theorem C23_names_distinct_refuted : exists a ranks, fermionic_cluster_ranks a false Wt = Ok ranks /\
  ~ NoDup (map (fun e : entry => fst (fst e)) ranks).
Proof.
  exists (mka (str "CCSDTt") [] 0 0 false). eexists. split; [vm_compute; reflexivity|]. cbn. intros H.
  inversion H as [|? ? _ H1]; subst. inversion H1 as [|? ? _ H2]; subst. inversion H2 as [|? ? H3 _]; subst. apply H3. left; reflexivity.
Qed.
Print Assumptions C23_names_distinct_refuted.
(** C23: for the documented ansatzes the names are distinct in every sector and spin type. *)
Theorem C23_named_ansatzes_distinct : forall n df a rspin w, In n (map fst named_ansatzes) -> from_string n df = Ok a ->
  exists ranks, fermionic_cluster_ranks a rspin w = Ok ranks /\ NoDup (map (fun e : entry => fst (fst e)) ranks).
Proof. exact named_distinct. Qed.
Print Assumptions C23_named_ansatzes_distinct.

(** C23: lambda entries correspond one to one, in order, to amplitude entries, with transposed keys below quadruples. *)
Theorem C23_lambda_transposes : forall a rspin ts, fermionic_cluster_ranks a rspin Wt = Ok ts ->
  exists ls, fermionic_cluster_ranks a rspin Wl = Ok ls /\ Forall2 lam_related ts ls.
Proof. exact lambda_ranks. Qed.
Print Assumptions C23_lambda_transposes.
Theorem C23_lambda_quadruple_refuted : exists a ts ls n k n' k', fermionic_cluster_ranks a false Wt = Ok ts /\
  fermionic_cluster_ranks a false Wl = Ok ls /\ In (n, k, 4) ts /\ In (n', k', 4) ls /\ ~ ph_transposed k k'.
Proof.
  exists (mka (str "CCSDTQ") [] 0 0 false). eexists. eexists. exists (str "t4"), (str "oooovvvv"), (str "l4"), (str "oooovvvv").
  split; [vm_compute; reflexivity|]. split; [vm_compute; reflexivity|]. split; [cbn; tauto|]. split; [cbn; tauto|].
  exact quad_not_transposed.
Qed.
Print Assumptions C23_lambda_quadruple_refuted.

(** C23: after a cluster prefix, the ranks present are those of the excitation letters. *)
Theorem C23_letters_select_ranks : forall a rspin w m op, fermion a = m ++ op -> cluster_method m ->
  (forall c, In c op -> letter_rank c <> None) -> (fermion a = str "CCD" -> w = Wt \/ w = Wl) ->
  exists ranks, fermionic_cluster_ranks a rspin w = Ok ranks /\
    forall r, (exists e, In e ranks /\ snd e = r) <-> exists c, In c op /\ letter_rank c = Some r.
Proof. exact letters_select. Qed.
Print Assumptions C23_letters_select_ranks.
Example C23_case_letters : cluster_method (str "CC") /\ (forall c, In c (str "SDT") -> letter_rank c <> None) /\
  fermionic_cluster_ranks (mka (str "CCSDT") [] 0 0 false) false Wea =
  Ok [(str "r1", str "v", 1); (str "r2", str "vvo", 2); (str "r3", str "vvvoo", 3)].
Proof. split; [left; reflexivity|]. split; [intros c H; change (str "SDT") with [83; 68; 84] in H; cbn [In] in H; intuition (subst; discriminate)|vm_compute; reflexivity]. Qed.

(** C23: an unrecognised method prefix is treated as MP2 instead of being refused. *)
Theorem C23_unknown_prefix_refused_refuted : exists f ranks, (forall m, In m method_types -> is_prefix m f = false) /\
  fermionic_cluster_ranks (mka f [] 0 0 false) false Wt = Ok ranks /\ ranks = [(str "t2", str "oovv", 2)].
Proof. exists (str "XYZ"). eexists. split; [cbn; intuition (subst; reflexivity)|]. split; vm_compute; reflexivity. Qed.
Print Assumptions C23_unknown_prefix_refused_refuted.

(** C23: bosonic entries. *)
Theorem C23_bosonic_entries : forall a w ranks, bosonic_cluster_ranks a w = Ok ranks ->
  NoDup (map (fun e => fst (fst e)) ranks) /\ StronglySorted (fun x y : entry => snd x <= snd y) ranks /\
  forall n k r, In (n, k, r) ranks -> n = bsymbol w ++ dec r /\ k = repeat (chr_of "b") r /\ 1 <= r <= 3.
Proof. exact boson_wf. Qed.
Print Assumptions C23_bosonic_entries.
Theorem C23_bosonic_lambda : forall a ts w, w <> Wt -> bosonic_cluster_ranks a Wt = Ok ts ->
  exists ls, bosonic_cluster_ranks a w = Ok ls /\
    Forall2 (fun t l : entry => fst (fst l) = str "l" ++ fst (fst t) /\ snd (fst l) = snd (fst t) /\ snd l = snd t) ts ls.
Proof. exact boson_lambda. Qed.
Print Assumptions C23_bosonic_lambda.

(** C23: coupling entries: one for each pair of ranks, with the right index letters. *)
Theorem C23_coupling_entries : forall a w, w = Wt \/ w = Wl -> exists ranks, coupling_cluster_ranks a w = Ok ranks /\
  (forall i j, 1 <= i <= frank a -> 1 <= j <= brank a -> exists n k, In (n, k, i, j) ranks) /\
  (forall n k i j, In (n, k, i, j) ranks -> 1 <= i <= frank a /\ 1 <= j <= brank a /\ n = csymbol w ++ dec i ++ dec j /\
     num bos_letter k = j /\ num occ_letter k = i /\ num vir_letter k = i /\ length k = j + 2 * i) /\
  NoDup (map (fun e => (snd (fst e), snd e)) ranks).
Proof. exact coupling_wf. Qed.
Print Assumptions C23_coupling_entries.
Theorem C23_coupling_lambda : forall a ts, coupling_cluster_ranks a Wt = Ok ts -> exists ls, coupling_cluster_ranks a Wl = Ok ls /\
  Forall2 (fun t l => let '(nt, kt, it, jt) := t in let '(nl, kl, il, jl) := l in
                      nl = str "l" ++ nt /\ it = il /\ jt = jl /\ ph_transposed kt kl) ts ls.
Proof. exact coupling_lambda. Qed.
Print Assumptions C23_coupling_lambda.
(** C23: coupling names are distinct for one-digit ranks.  Missing: larger ranks, where they collide. *)
Theorem C23_coupling_names_partial : forall a w ranks, w = Wt \/ w = Wl -> frank a < 10 -> brank a < 10 ->
  coupling_cluster_ranks a w = Ok ranks -> NoDup (map (fun e => fst (fst (fst e))) ranks).
Proof. exact coupling_names. Qed.
Print Assumptions C23_coupling_names_partial.
Theorem C23_coupling_names_refuted : exists a ranks n k i j k' i' j', coupling_cluster_ranks a Wt = Ok ranks /\
  In (n, k, i, j) ranks /\ In (n, k', i', j') ranks /\ (i, j) <> (i', j').
Proof. exact coupling_collision. Qed.
Print Assumptions C23_coupling_names_refuted.
(** C23: coupling entries are refused in the EOM sectors. *)
Theorem C23_coupling_eom_refused : forall a w, w <> Wt -> w <> Wl -> 0 < frank a -> 0 < brank a ->
  coupling_cluster_ranks a w = Err ModelNotImplemented.
Proof. exact coupling_refuses. Qed.
Print Assumptions C23_coupling_eom_refused.
Example C23_case_coupling : coupling_cluster_ranks (mka (str "CCSD") (str "SD") 1 2 false) Wl =
  Ok [(str "lu11", str "bvo", 1, 1); (str "lu12", str "bbvo", 1, 2)].
Proof. vm_compute. reflexivity. Qed.
