(** Fixed points of the unrestricted update. *)
From Coq Require Import String Permutation Factorial Field.
From Verif Require Import Base ListAux Alg ArrModel ArrProofs PermModel TensorModel TensorSpec EinsumModel SpaceModel AnsatzModel AnsatzRanks VecModel VecSpec VecThms
  CcModel CcSpec CcProofs CcThms CcUThms.
Set Implicit Arguments.
Local Open Scope string_scope.
Local Open Scope list_scope.
Local Open Scope nat_scope.

Section Fix.
  Variable F : fld.
  Local Open Scope rng_scope.
  Add Field Ffield7 : (fth F).
  Lemma rnat_fact2 ms : (forall m, In m ms -> m <= 2)%nat ->
    @rnat F (fold_right Nat.mul 1%nat (map fact ms)) = rpow (@two F) (fold_right Nat.add 0%nat (map pred ms)).
  Proof.
    induction ms as [|m ms IH]; intros H; [cbn; ring|]. cbn [map fold_right]. rewrite rnat_mul, IH by (intros; apply H; right; assumption).
    assert (Hm : (m <= 2)%nat) by (apply H; left; reflexivity). destruct m as [|[|[|m]]]; [| | |lia]; cbn [fact Nat.mul Nat.add pred rpow rnat]; unfold two; ring.
  Qed.
  Lemma rpow_nonzero (x : F) n : x <> 0 -> rpow x n <> 0.
  Proof.
    intros Hx. induction n as [|n IH]; cbn.
    - intros E. apply (F_1_neq_0 (fth F)). exact E.
    - intros E. apply IH. transitivity (finv x * (x * rpow x n)); [field; exact Hx|]. rewrite E. ring.
  Qed.
  (** No three axes share letter and spin: the antisymmetriser is a projection. *)
  Lemma scale_one key spins : @two F <> 0 -> (forall m, In m (spin_multiplicities key spins) -> m <= 2)%nat ->
    @antisymmetriser_scale F key spins = 1.
  Proof.
    intros H2 Hm. unfold antisymmetriser_scale. change (radd r1 r1) with (@two F). rewrite (rnat_fact2 _ Hm).
    set (x := rpow two _). assert (x <> 0) by (apply rpow_nonzero, H2). field. assumption.
  Qed.
  Lemma fixed_value (t r D s : F) : D <> 0 -> s = 1 -> (s * (t + fdiv r D) = t <-> r = 0).
  Proof.
    intros HD ->. split; intros H.
    - transitivity (fdiv r D * D); [field; exact HD|]. replace (fdiv r D) with (1 * (t + fdiv r D) - t) by ring. rewrite H. ring.
    - rewrite H. field. exact HD.
  Qed.
  Lemma u_fixed (c : ucc F) w sz eps old res fs bs cs out : @two F <> 0 -> w = Wt \/ w = Wl -> (frank (u_ansatz c) <= 1)%nat -> distinct_names (u_ansatz c) false w ->
    fermionic_cluster_ranks (u_ansatz c) false w = Ok fs -> bosonic_cluster_ranks (u_ansatz c) w = Ok bs -> coupling_cluster_ranks (u_ansatz c) w = Ok cs ->
    let l := fermionic_blocks fs ++ bosonic_blocks bs ++ coupling_blocks cs in
    (forall name key stored spins, In (name, key, stored, spins) l -> (length key <= 26)%nat) ->
    u_energies_known (u_omega c) (u_fock c) l sz eps -> u_holds (str "new") l sz res -> u_holds [] l sz old ->
    u_antisymmetric (str "new") (fermionic_blocks fs) res -> u_antisymmetric [] (fermionic_blocks fs) old ->
    (forall name key stored spins idx, In (name, key, stored, spins) l -> inb (spin_shape_of sz key spins) idx -> u_denominator sz eps key spins idx <> 0) ->
    (forall name key stored spins m, In (name, key, stored, spins) (fermionic_blocks fs) -> In m (spin_multiplicities key spins) -> (m <= 2)%nat) ->
    u_update c w old res = Ok out ->
    (forall name key stored spins idx, In (name, key, stored, spins) l -> inb (spin_shape_of sz key spins) idx -> u_block_at out name stored idx = u_block_at old name stored idx) <->
    (forall name key stored spins idx, In (name, key, stored, spins) l -> inb (spin_shape_of sz key spins) idx -> u_block_at res (name ++ str "new") stored idx = 0).
  Proof.
    intros H2 Hw Hf HD Ef Eb Ec l H26 HE HR HO AR AO HN HM Eo.
    destruct (@u_jacobi F c w sz eps old res fs bs cs Hw Hf HD Ef Eb Ec H26 HE HR HO AR AO) as (out' & Eo' & _ & _ & GF & GB).
    rewrite Eo in Eo'. apply Ok_inj in Eo'. subst out'.
    assert (X : forall name key stored spins idx, In (name, key, stored, spins) l -> inb (spin_shape_of sz key spins) idx ->
      (u_block_at out name stored idx = u_block_at old name stored idx <-> u_block_at res (name ++ str "new") stored idx = 0)).
    { intros name key stored spins idx Hin Hi. pose proof (HN _ _ _ _ _ Hin Hi) as HNZ. apply in_app_or in Hin. destruct Hin as [Hin|Hin].
      - rewrite (GF _ _ _ _ _ Hin Hi). unfold new_value. apply fixed_value; [exact HNZ|]. apply scale_one; [exact H2|]. intros m Hm. exact (HM _ _ _ _ _ Hin Hm).
      - rewrite (GB _ _ _ _ _ Hin Hi). unfold new_value. apply fixed_value; [exact HNZ|reflexivity]. }
    split; intros H name key stored spins idx Hin Hi; apply (X _ _ _ _ _ Hin Hi), (H _ _ _ _ _ Hin Hi).
  Qed.
End Fix.
