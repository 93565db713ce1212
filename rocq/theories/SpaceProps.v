(** Property theorems for orbital spaces (C17-C21). *)
From Coq Require Import QArith Sorted.
From Verif Require Import Base SpaceModel SpaceSpec SpaceProofs SpaceThms.
Local Open Scope nat_scope.

(** C17: each orbital is on exactly one side of each of the three divisions. *)
Theorem C17_masks_partition : forall s i, accepted s -> i < nmo s ->
  (isin i (virtual s) <-> ~ isin i (sp_occupied s)) /\ (isin i (correlated s) <-> ~ isin i (sp_frozen s)) /\
  (isin i (inactive s) <-> ~ isin i (sp_active s)).
Proof. exact partition_masks. Qed.
Print Assumptions C17_masks_partition.

(** C17: the size properties add up. *)
Theorem C17_sizes_add_up : forall s, accepted s ->
  nmo s = nocc s + nvir s /\ ncorr s = ncocc s + ncvir s /\ nfroz s = nfocc s + nfvir s /\
  nact s = naocc s + navir s /\ ninact s = niocc s + nivir s /\ nmo s = nfroz s + ncorr s /\ nmo s = nact s + ninact s.
Proof. exact partition_counts. Qed.
Print Assumptions C17_sizes_add_up.

(** C17: [size(char)] is the number of orbitals that the character denotes. *)
Theorem C17_size_is_count : forall s c, accepted s -> known_char c ->
  exists k, sp_size s c = Ok k /\ cardinal (nmo s) (denotes s c) k.
Proof. exact size_counts. Qed.
Print Assumptions C17_size_is_count.

(** C17: the mask of each character holds exactly the orbitals it denotes; other characters are refused. *)
Theorem C17_mask_is_documented : forall s c, accepted s ->
  (known_char c -> exists m, sp_mask s c = Ok m /\ length m = nmo s /\ sp_size s c = Ok (msum m) /\
                  (forall i, isin i m <-> denotes s c i)) /\
  (~ known_char c -> sp_mask s c = Err KeyError /\ sp_size s c = Err KeyError).
Proof. exact sp_mask_spec. Qed.
Print Assumptions C17_mask_is_documented.

Example C17_case : exists s, make_space [true; true; true; false; false] [true; false; false; false; true]
  [false; false; true; true; false] = Ok s /\ sp_size s ch_o = Ok 2 /\ sp_size s ch_V = Ok 1 /\ nmo s = 5.
Proof. eexists. repeat split; reflexivity. Qed.

(** C17: the inactive space is not contained in the correlated space: a frozen orbital counts as inactive. *)
Theorem C17_inactive_within_correlated_refuted : exists s i, accepted s /\ denotes s ch_i i /\ ~ denotes s ch_x i.
Proof.
  exists (mkspace [true; false] [true; false] [false; false]), 0. split; [exists [true; false], [true; false], [false; false]; reflexivity|].
  unfold denotes, nmo, isin. cbn. unfold ch_i, ch_x, ch_o, ch_O, ch_v, ch_V, ch_a. split.
  - split; [lia|]. do 3 right. left. repeat split; discriminate.
  - intros [_ H]. destruct H as [[_ H]|[[H _]|[[H _]|[[H _]|[[H _]|[[H _]|[H _]]]]]]]; [apply H; reflexivity|discriminate..].
Qed.
Print Assumptions C17_inactive_within_correlated_refuted.

(** C18: [slice(char)] returns the interval of exactly the denoted orbitals when they form one run, and
    raises ValueError when they do not. *)
Theorem C18_slice_exact_or_refused : forall s c, accepted s -> known_char c ->
  (forall a b, sp_slice s c = Ok (a, b) -> (0 <= a)%Z /\ (0 <= b)%Z /\ forall i, denotes s c i <-> (a <= Z.of_nat i < b)%Z) /\
  (0 < nmo s -> (exists a b, forall i, denotes s c i <-> a <= i < b) -> exists r, sp_slice s c = Ok r) /\
  (~ (exists a b, forall i, denotes s c i <-> a <= i < b) -> sp_slice s c = Err ValueError).
Proof. exact slice_spec. Qed.
Print Assumptions C18_slice_exact_or_refused.

(** C18: applied to an array over all orbitals, the slice and the mask select the same elements. *)
Theorem C18_slice_selects_as_mask : forall (A : Type) s c sl (x : list A), accepted s -> sp_slice s c = Ok sl -> length x = nmo s ->
  exists m, sp_mask s c = Ok m /\ pyslice sl x = select m x.
Proof. exact @slice_selects. Qed.
Print Assumptions C18_slice_selects_as_mask.

Example C18_case_run : exists s, make_space [true; true; true; false; false] [true; false; false; false; true]
  (repeat false 5) = Ok s /\ sp_slice s ch_x = Ok (1, 4)%Z /\ pyslice (1, 4)%Z [10; 11; 12; 13; 14] = [11; 12; 13].
Proof. eexists. repeat split; reflexivity. Qed.
Example C18_case_gap : exists s, make_space [true; true; true; false; false] [false; true; false; false; true]
  (repeat false 5) = Ok s /\ sp_slice s ch_o = Err ValueError.
Proof. eexists. repeat split; reflexivity. Qed.

(** C19: over the occupied orbitals, [oslice] and [omask] select the same elements. *)
Theorem C19_oslice : forall (A : Type) s c sl (x : list A), accepted s -> occupied_first s -> oslice s c = Ok sl ->
  length x = nocc s -> exists m, omask s c = Ok m /\ pyslice sl x = select m x.
Proof. exact @oslice_thm. Qed.
Print Assumptions C19_oslice.

(** C19: over the virtual orbitals, [vslice] and [vmask] select the same elements, when the subspace
    contains a virtual orbital or there are no occupied orbitals.  Missing: the other subspaces, for which
    the claim is false (next theorem). *)
Theorem C19_vslice_partial : forall (A : Type) s c sl (x : list A), accepted s -> occupied_first s -> vslice s c = Ok sl ->
  length x = nvir s -> (nocc s = 0 \/ exists i, denotes s c i /\ ~ isin i (sp_occupied s)) ->
  exists m, vmask s c = Ok m /\ pyslice sl x = select m x.
Proof. exact @vslice_thm. Qed.
Print Assumptions C19_vslice_partial.

(** C19: with an empty active virtual space, [vslice("V")] selects a non-empty block. *)
Theorem C19_vslice_refuted : exists s sl (x : list nat), accepted s /\ occupied_first s /\ vslice s ch_V = Ok sl /\
  length x = nvir s /\ forall m, vmask s ch_V = Ok m -> select m x = [] /\ pyslice sl x <> [].
Proof.
  exists (mkspace [true; false; false; false] (repeat false 4) (repeat false 4)), (0, -1)%Z, [7; 8; 9].
  split; [exists [true; false; false; false], (repeat false 4), (repeat false 4); reflexivity|].
  split; [exists 1, 3; reflexivity|]. split; [reflexivity|]. split; [reflexivity|].
  intros m H. vm_compute in H. injection H as <-. split; [reflexivity|discriminate].
Qed.
Print Assumptions C19_vslice_refuted.

(** C19: over the correlated orbitals, [xslice] and [xmask] select the same elements, for every character
    but 'i' and, for 'i', when there is no frozen occupied orbital.  Missing: 'i' with a frozen core, for which
    the claim is false (next theorem). *)
Theorem C19_xslice_partial : forall (A : Type) s c sl (x : list A), accepted s -> frozen_outer s -> xslice s c = Ok sl ->
  length x = ncorr s -> (c = ch_i -> nfocc s = 0) -> exists m, xmask s c = Ok m /\ pyslice sl x = select m x.
Proof. exact @xslice_thm. Qed.
Print Assumptions C19_xslice_partial.

Theorem C19_xslice_refuted : exists s sl (x : list nat), accepted s /\ occupied_first s /\ frozen_outer s /\ xslice s ch_i = Ok sl /\
  length x = ncorr s /\ forall m, xmask s ch_i = Ok m -> pyslice sl x <> select m x.
Proof.
  exists (mkspace [true; true; false; false] [true; false; false; false] (repeat false 4)), (-1, 1)%Z, [7; 8; 9].
  split; [exists [true; true; false; false], [true; false; false; false], (repeat false 4); reflexivity|].
  split; [exists 2, 2; reflexivity|].
  split; [exists 1, 3, 0; split; [reflexivity|]; split; unfold isin; cbn; intros [|[|[|[|[|i]]]]] H; try lia; try reflexivity; discriminate|].
  split; [reflexivity|]. split; [reflexivity|].
  intros m H. vm_compute in H. injection H as <-. discriminate.
Qed.
Print Assumptions C19_xslice_refuted.

Example C19_case : exists s, make_space [true; true; true; false; false; false] [true; false; false; false; false; true]
  [false; false; true; true; false; false] = Ok s /\ occupied_first s /\ frozen_outer s /\
  oslice s ch_O = Ok (2, 3)%Z /\ vslice s ch_V = Ok (0, 1)%Z /\ xslice s ch_V = Ok (2, 3)%Z.
Proof.
  eexists. split; [reflexivity|]. split; [exists 3, 3; reflexivity|].
  split; [exists 1, 4, 1; split; [reflexivity|]; split; unfold isin; cbn; intros [|[|[|[|[|[|[|i]]]]]]] H; try lia; try reflexivity; discriminate|].
  repeat split; reflexivity.
Qed.

(** C20: the constructor raises ValueError exactly on inconsistent masks. *)
Theorem C20_rejects : forall o f a, (length o <> length f \/ length f <> length a \/ exists i, isin i f /\ isin i a) ->
  make_space o f a = Err ValueError.
Proof. exact make_space_err. Qed.
Print Assumptions C20_rejects.
Theorem C20_accepts : forall o f a, length o = length f -> length f = length a -> frozen_active_disjoint f a ->
  make_space o f a = Ok (mkspace o f a).
Proof. exact make_space_ok. Qed.
Print Assumptions C20_accepts.

Example C20_case_overlap : isin 1 [false; true] /\ isin 1 [true; true] /\ make_space [true; false] [false; true] [true; true] = Err ValueError.
Proof. repeat split. Qed.
Example C20_case_ok : frozen_active_disjoint [false; true; false] [true; false; false].
Proof. intros [|[|[|i]]] [H1 H2]; try discriminate. destruct i; discriminate. Qed.

(** C21: the default space. *)
Theorem C21_default_space : forall mo_occ, exists s, construct_default mo_occ = Ok s /\ nmo s = length mo_occ /\
  (forall i, isin i (sp_occupied s) <-> exists q, nth_error mo_occ i = Some q /\ (0 < q)%Q) /\
  (forall i, ~ isin i (sp_frozen s)) /\ (forall i, ~ isin i (sp_active s)).
Proof. exact construct_default_ok. Qed.
Print Assumptions C21_default_space.

(** C21: FNO space by threshold.  [no] occupied orbitals come first; [n] are the natural occupations of the
    virtual block, largest first.  Exactly the virtuals with occupation at most the threshold are frozen. *)
Theorem C21_fno_threshold : forall mo_occ tol n no, length n + no = length mo_occ ->
  (forall i q, nth_error mo_occ i = Some q -> ((0 < q)%Q <-> i < no)) ->
  StronglySorted (fun x y => (y <= x)%Q) n ->
  exists s, construct_fno mo_occ tol None n = Ok s /\ nmo s = length mo_occ /\
    (forall i, isin i (sp_occupied s) <-> i < no) /\ (forall i, ~ isin i (sp_active s)) /\
    (forall i, isin i (sp_frozen s) <-> exists j q, i = no + j /\ nth_error n j = Some q /\ (q <= tol)%Q).
Proof. exact fno_tol. Qed.
Print Assumptions C21_fno_threshold.

(** C21: FNO space by retained fraction: virtual [j] is frozen exactly when the occupation summed up to
    and including it exceeds the fraction of the total. *)
Theorem C21_fno_fraction : forall mo_occ tol f n no, length n + no = length mo_occ ->
  (forall i q, nth_error mo_occ i = Some q -> ((0 < q)%Q <-> i < no)) ->
  Forall (fun x => (0 <= x)%Q) n -> (0 < Qsum n)%Q ->
  exists s, construct_fno mo_occ tol (Some f) n = Ok s /\ nmo s = length mo_occ /\
    (forall i, isin i (sp_occupied s) <-> i < no) /\ (forall i, ~ isin i (sp_active s)) /\
    (forall i, isin i (sp_frozen s) <-> exists j, i = no + j /\ j < length n /\ (f * Qsum n < Qsum (firstn (S j) n))%Q).
Proof. exact fno_frac. Qed.
Print Assumptions C21_fno_fraction.

Example C21_case : exists s, construct_fno [2; 2; 0; 0; 0]%Q (1#10) None [1#2; 1#5; 1#20]%Q = Ok s /\
  sp_frozen s = [false; false; false; false; true] /\
  StronglySorted (fun x y => (y <= x)%Q) [1#2; 1#5; 1#20]%Q.
Proof.
  eexists. split; [reflexivity|]. split; [reflexivity|]. repeat constructor; unfold Qle; cbn; lia.
Qed.
Example C21_case_fraction : exists s, construct_fno [2; 2; 0; 0; 0]%Q (1#10) (Some (9#10)) [1#2; 1#5; 1#20]%Q = Ok s /\
  sp_frozen s = [false; false; false; true; true].
Proof. eexists. split; reflexivity. Qed.

(** C21: without the occupied-first order, an occupied orbital can be frozen. *)
Theorem C21_fno_non_aufbau_refuted : exists mo_occ tol n s i, length n + 2 = length mo_occ /\
  StronglySorted (fun x y => (y <= x)%Q) n /\
  construct_fno mo_occ tol None n = Ok s /\ isin i (sp_occupied s) /\ isin i (sp_frozen s).
Proof.
  exists [2; 0; 2]%Q, (1#10), [1#20]%Q. eexists. exists 2. split; [reflexivity|]. split; [repeat constructor|].
  split; [reflexivity|]. split; reflexivity.
Qed.
Print Assumptions C21_fno_non_aufbau_refuted.
