(** Theorems for C30 (restricted), C31 (general) and C32 (unrestricted): amplitudes and lambdas
    as vectors.  [Wt] selects amplitudes, [Wl] lambdas. *)
From Coq Require Import String.
From Verif Require Import Base Alg ArrModel PermModel TensorSpec SpaceModel AnsatzModel VecModel VecSpec VecProofs VecThms.
Local Open Scope string_scope.
Local Open Scope list_scope.
Local Open Scope nat_scope.

(** C30: restricted amplitudes converted to a vector and back are the same amplitudes. *)
Theorem C30_amplitudes_round_trip : forall (K : rng) a sp nbos w (amps : dict pystr (tval K)),
  w = Wt \/ w = Wl -> has_amplitudes a true w -> rg_namespace a sp nbos true w amps ->
  exists v amps', rg_to_vector K a sp nbos true w amps = Ok v /\ rg_from_vector K a sp nbos true w v = Ok amps' /\
    same_namespace amps' amps.
Proof. exact (fun K a sp nbos w amps => @rg_forward K a sp nbos true w amps). Qed.
Print Assumptions C30_amplitudes_round_trip.

(** C30: a vector of the right length, the length of every vector of amplitudes, is returned by
    the conversion to amplitudes and back; a shorter one is refused and a longer one is cut. *)
Theorem C30_vector_round_trip : forall (K : rng) a sp nbos w, w = Wt \/ w = Wl -> has_amplitudes a true w ->
  exists size,
    (forall amps : dict pystr (tval K), rg_namespace a sp nbos true w amps ->
       forall v, rg_to_vector K a sp nbos true w amps = Ok v -> length v = size) /\
    (forall v, is_ok (rg_from_vector K a sp nbos true w v) = true -> size <= length v) /\
    (forall v, size <= length v -> rg_from_vector K a sp nbos true w v = rg_from_vector K a sp nbos true w (firstn size v)) /\
    (distinct_names a true w -> forall v, length v = size -> exists amps, rg_from_vector K a sp nbos true w v = Ok amps /\
       rg_namespace a sp nbos true w amps /\ rg_to_vector K a sp nbos true w amps = Ok v).
Proof. exact (fun K a sp nbos w => @rg_backward K a sp nbos true w). Qed.
Print Assumptions C30_vector_round_trip.

(** C30: every documented ansatz meets the hypotheses, in every spin type. *)
Theorem C30_documented : forall n df a rspin w, In n (map fst named_ansatzes) -> from_string n df = Ok a -> w = Wt \/ w = Wl ->
  has_amplitudes a rspin w /\ distinct_names a rspin w.
Proof. exact named_ready. Qed.
Print Assumptions C30_documented.

Definition ex_space := mkspace [true; true; false] [false; false; false] [false; false; false].
Definition ex_ansatz := mka (str "CCSD") (str "S") 1 1 false.
Example C30_case : exists amps, rg_from_vector Z_rng ex_ansatz ex_space 2 true Wt (map Z.of_nat (seq 0 12)) = Ok amps /\
  rg_to_vector Z_rng ex_ansatz ex_space 2 true Wt amps = Ok (map Z.of_nat (seq 0 12)) /\
  dget pystr_eq_dec (str "u11") amps = Some (VArr (mkarr [2; 2; 1] [8; 9; 10; 11]%Z)).
Proof. eexists. split; [vm_compute; reflexivity|]. split; vm_compute; reflexivity. Qed.

(** C30: when full and active triples are combined, both are called t3 and the first is lost. *)
Theorem C30_combined_triples_refuted : exists a v amps v', rg_from_vector Z_rng a ex_space 0 true Wt v = Ok amps /\
  rg_to_vector Z_rng a ex_space 0 true Wt amps = Ok v' /\ v' <> v.
Proof.
  exists (mka (str "CCTt") [] 0 0 false), (map Z.of_nat (seq 0 8)). eexists. eexists. split; [vm_compute; reflexivity|]. split; [vm_compute; reflexivity|].
  vm_compute. discriminate.
Qed.
Print Assumptions C30_combined_triples_refuted.

(** C31: the same in the general class (which stores all entries, without packing). *)
Theorem C31_amplitudes_round_trip : forall (K : rng) a sp nbos w (amps : dict pystr (tval K)),
  w = Wt \/ w = Wl -> has_amplitudes a false w -> rg_namespace a sp nbos false w amps ->
  exists v amps', rg_to_vector K a sp nbos false w amps = Ok v /\ rg_from_vector K a sp nbos false w v = Ok amps' /\
    same_namespace amps' amps.
Proof. exact (fun K a sp nbos w amps => @rg_forward K a sp nbos false w amps). Qed.
Print Assumptions C31_amplitudes_round_trip.
Theorem C31_vector_round_trip : forall (K : rng) a sp nbos w, w = Wt \/ w = Wl -> has_amplitudes a false w ->
  exists size,
    (forall amps : dict pystr (tval K), rg_namespace a sp nbos false w amps ->
       forall v, rg_to_vector K a sp nbos false w amps = Ok v -> length v = size) /\
    (forall v, is_ok (rg_from_vector K a sp nbos false w v) = true -> size <= length v) /\
    (forall v, size <= length v -> rg_from_vector K a sp nbos false w v = rg_from_vector K a sp nbos false w (firstn size v)) /\
    (distinct_names a false w -> forall v, length v = size -> exists amps, rg_from_vector K a sp nbos false w v = Ok amps /\
       rg_namespace a sp nbos false w amps /\ rg_to_vector K a sp nbos false w amps = Ok v).
Proof. exact (fun K a sp nbos w => @rg_backward K a sp nbos false w). Qed.
Print Assumptions C31_vector_round_trip.
Example C31_case : exists lams, rg_from_vector Z_rng ex_ansatz ex_space 2 false Wl (map Z.of_nat (seq 0 12)) = Ok lams /\
  rg_to_vector Z_rng ex_ansatz ex_space 2 false Wl lams = Ok (map Z.of_nat (seq 0 12)) /\
  dget pystr_eq_dec (str "l2") lams = Some (VArr (mkarr [1; 1; 2; 2] [2; 3; 4; 5]%Z)).
Proof. eexists. split; [vm_compute; reflexivity|]. split; vm_compute; reflexivity. Qed.

(** C32: unrestricted amplitudes, antisymmetric in equal indices of equal spin, converted to a
    (packed) vector and back are the same amplitudes. *)
Theorem C32_amplitudes_round_trip : forall (K : rng) a sa sb nbos w (amps : dict pystr (tval K)), no_two_torsion K ->
  w = Wt \/ w = Wl -> frank a <= 1 -> has_amplitudes a false w -> u_namespace a sa sb nbos w amps ->
  exists v amps', u_to_vector K a sa sb nbos w amps = Ok v /\ u_from_vector K a sa sb nbos w v = Ok amps' /\
    same_namespace amps' amps.
Proof. exact u_forward. Qed.
Print Assumptions C32_amplitudes_round_trip.

(** C32: exactly the vectors of one length are accepted; each comes back unchanged, by way of
    amplitudes with the right shapes and antisymmetry. *)
Theorem C32_vector_round_trip : forall (K : rng) a sa sb nbos w, w = Wt \/ w = Wl -> frank a <= 1 -> has_amplitudes a false w ->
  exists size,
    (forall amps : dict pystr (tval K), no_two_torsion K -> u_namespace a sa sb nbos w amps ->
       forall v, u_to_vector K a sa sb nbos w amps = Ok v -> length v = size) /\
    (forall v, is_ok (u_from_vector K a sa sb nbos w v) = true -> length v = size) /\
    (distinct_names a false w -> forall v, length v = size -> exists amps, u_from_vector K a sa sb nbos w v = Ok amps /\
       u_namespace a sa sb nbos w amps /\ u_to_vector K a sa sb nbos w amps = Ok v).
Proof. exact u_backward. Qed.
Print Assumptions C32_vector_round_trip.

(** C32: coupling amplitudes with more than one fermionic excitation are refused. *)
Theorem C32_higher_coupling_refused : forall (K : rng) a sa sb nbos w fs bs, w = Wt \/ w = Wl ->
  fermionic_cluster_ranks a false w = Ok fs -> bosonic_cluster_ranks a w = Ok bs -> 1 < frank a -> 0 < brank a ->
  (forall v, u_from_vector K a sa sb nbos w v = Err ModelNotImplemented) /\
  (forall amps, u_to_vector K a sa sb nbos w amps = Err ModelNotImplemented).
Proof. exact u_refuses. Qed.
Print Assumptions C32_higher_coupling_refused.

Definition ex_alpha := mkspace [true; true; false; false] [false; false; false; false] [false; false; false; false].
Definition ex_beta := mkspace [true; false; false; false] [false; false; false; false] [false; false; false; false].
Example C32_case : exists amps d, u_from_vector Z_rng ex_ansatz ex_alpha ex_beta 2 Wt (map Z.of_nat (seq 0 36)) = Ok amps /\
  u_to_vector Z_rng ex_ansatz ex_alpha ex_beta 2 Wt amps = Ok (map Z.of_nat (seq 0 36)) /\
  dget pystr_eq_dec (str "t2") amps = Some (VSpin d) /\
  dget pystr_eq_dec (str "aaaa") d = Some (mkarr [2; 2; 2; 2] [0; 0; 0; 0; 0; 7; -7; 0; 0; -7; 7; 0; 0; 0; 0; 0]%Z).
Proof. eexists. eexists. split; [vm_compute; reflexivity|]. split; [vm_compute; reflexivity|]. split; vm_compute; reflexivity. Qed.
