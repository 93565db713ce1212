(** Proofs: round trips of the equation-of-motion vectors. *)
From Coq Require Import String Permutation.
From Verif Require Import Base ListAux Alg ArrModel ArrProofs PermModel PermSpec PermProps TensorModel TensorSpec TensorProps SpaceModel AnsatzModel AnsatzSpec AnsatzProofs AnsatzRanks
  GroupProofs SpinProofs MiscProofs DampProofs KernelProofs VecModel VecSpec VecProofs VecThms CcModel CcSpec EomModel EomSpec EomThms.
Set Implicit Arguments.
Local Open Scope nat_scope.
Local Open Scope list_scope.

Lemma slice_0_all {A} (v : list A) : slice 0 (length v) v = v.
Proof. unfold slice. rewrite Nat.sub_0_r. apply firstn_all. Qed.

Theorem r_round (K : rng) a sp x fs : excitations a true x fs ->
  exists size,
    (forall v, length v = size -> exists amps, r_eom_from_vector K a sp x v = Ok amps /\ eom_namespace (r_amplitude sp) fs amps /\ r_eom_to_vector K a sp x amps = Ok v) /\
    (forall amps, eom_namespace (r_amplitude sp) fs amps -> exists v amps', r_eom_to_vector K a sp x amps = Ok v /\ length v = size /\
       r_eom_from_vector K a sp x v = Ok amps' /\ same_namespace amps' amps).
Proof.
  intros (Ef & HNE & ND & Eb & Hc). pose proof (@no_bosons_ok a x Eb Hc) as HNB.
  assert (HB0 : forall name key n, In (name, key, n) fs -> exists b, r_block sp (name, key, n) = Ok (name, b) /\ block_ok b /\ block_nodup b /\ block_raw b /\ match b with BArr _ => True | BSpin cs => cs <> [] end /\ forall t : tval K, block_fits K b t <-> r_amplitude sp key n t)
    by (intros name key n I; exact (@r_block_ok K a sp x fs name key n Ef I)).
  assert (HB : forall name key n, In (name, key, n) fs -> exists b, r_block sp (name, key, n) = Ok (name, b) /\ block_ok b /\ block_nodup b /\ match b with BArr _ => True | BSpin cs => cs <> [] end /\ forall t : tval K, block_fits K b t <-> r_amplitude sp key n t).
  { intros name key n I. destruct (HB0 _ _ _ I) as (b & H1 & H2 & H3 & _ & H4 & H5). exists b. repeat (split; [assumption|]). exact H5. }
  destruct (@blocks_layout K (r_block sp) _ fs HB) as (lay & EL).
  assert (RW : Forall (fun nb => block_raw (snd nb)) lay).
  { apply Forall_forall. intros [name b] Hin. destruct (@blocks_in K (r_block sp) _ fs HB lay EL name b Hin) as (key & n & I & E). destruct (HB0 _ _ _ I) as (b' & E' & _ & _ & H & _).
    rewrite E in E'. apply Ok_inj in E'. apply pair_equal_spec in E'. destruct E' as [_ ->]. exact H. }
  assert (ELL : r_eom_layout a sp x = Ok lay) by (unfold r_eom_layout; rewrite Ef; exact EL).
  exists (lsize lay). unfold r_eom_from_vector, r_eom_to_vector, rg_eom_from_vector. rewrite ELL. cbn [bind]. split.
  - intros v Hv. destruct (@blocks_backward K (r_block sp) _ fs HB lay EL a x HNB HNE v ND Hv) as (amps & E1 & E2 & E3).
    exists amps. rewrite E1, HNB. cbn [bind fst]. split; [reflexivity|]. split; assumption.
  - intros amps HR. destruct (@blocks_forward K (r_block sp) _ fs HB lay EL a x HNB HNE amps (or_introl RW) HR) as (v & amps' & E1 & E2 & E3 & E4).
    exists v, amps'. rewrite E3, HNB. repeat (split; [assumption || reflexivity|]). exact E4.
Qed.

Theorem g_round (K : rng) a sp x fs : excitations a false x fs ->
  exists size,
    (forall v, length v = size -> exists amps, g_eom_from_vector K a sp x v = Ok amps /\ eom_namespace (g_amplitude sp) fs amps /\ g_eom_to_vector K a sp x amps = Ok v) /\
    (no_two_torsion K -> forall amps, eom_namespace (g_amplitude sp) fs amps -> exists v amps', g_eom_to_vector K a sp x amps = Ok v /\ length v = size /\
       g_eom_from_vector K a sp x v = Ok amps' /\ same_namespace amps' amps).
Proof.
  intros (Ef & HNE & ND & Eb & Hc). pose proof (@no_bosons_ok a x Eb Hc) as HNB.
  assert (HB : forall name key n, In (name, key, n) fs -> exists b, g_block sp (name, key, n) = Ok (name, b) /\ block_ok b /\ block_nodup b /\ match b with BArr _ => True | BSpin cs => cs <> [] end /\ forall t : tval K, block_fits K b t <-> g_amplitude sp key n t)
    by (intros name key n I; exact (@g_block_ok K a sp x fs name key n Ef I)).
  destruct (@blocks_layout K (g_block sp) _ fs HB) as (lay & EL).
  assert (ELL : g_eom_layout a sp x = Ok lay) by (unfold g_eom_layout; rewrite Ef; exact EL).
  exists (lsize lay). unfold g_eom_from_vector, g_eom_to_vector, rg_eom_from_vector. rewrite ELL. cbn [bind]. split.
  - intros v Hv. destruct (@blocks_backward K (g_block sp) _ fs HB lay EL a x HNB HNE v ND Hv) as (amps & E1 & E2 & E3).
    exists amps. rewrite E1, HNB. cbn [bind fst]. split; [reflexivity|]. split; assumption.
  - intros HT amps HR. destruct (@blocks_forward K (g_block sp) _ fs HB lay EL a x HNB HNE amps (or_intror HT) HR) as (v & amps' & E1 & E2 & E3 & E4).
    exists v, amps'. rewrite E3, HNB. repeat (split; [assumption || reflexivity|]). exact E4.
Qed.

(** * The unrestricted class. *)
Section Scaled.
  Variable F : fld.
  Definition srel (n : nat) (d d' : dict pystr (arr F)) : Prop :=
    forall spin, dget pystr_eq_dec spin d' = option_map (divide_by F (u_factor n spin)) (dget pystr_eq_dec spin d).
  Lemma u_spins_rel n cs v : forall i0 acc acc' d i1, srel n acc acc' -> read_spins F cs v i0 acc = Ok (d, i1) ->
    exists d', u_read_spins F n cs v i0 acc' = Ok (d', i1) /\ srel n d d'.
  Proof.
    induction cs as [|[spin c] cs IH]; intros i0 acc acc' d i1 HR E; cbn [read_spins u_read_spins] in *.
    - apply Ok_pair in E. destruct E as [<- <-]. exists acc'. split; [reflexivity|exact HR].
    - destruct (read_codec F c v i0) as [xi|]; [|discriminate]. cbn [bind] in *. eapply IH; [|exact E].
      intros s. rewrite !dget_dset. destruct (pystr_eq_dec s spin) as [->|]; [reflexivity|apply HR].
  Qed.
  Variables (x : sector) (sa sb : space) (sizes : dict pystr nat) (fs0 : list entry).
  Definition nrel (m m' : dict pystr (tval F)) : Prop :=
    forall name, match dget pystr_eq_dec name m, dget pystr_eq_dec name m' with
      | None, None => True
      | Some (VSpin d), Some (VSpin d') => exists key n, In (name, key, n) fs0 /\ srel n d d'
      | _, _ => False end.
  Lemma u_read_rel fs v : incl fs fs0 -> forall lay i0 acc acc' res i1, mapM (u_block x sa sb sizes) fs = Ok lay -> nrel acc acc' ->
    read_blocks F lay v i0 acc = Ok (res, i1) -> exists res', u_read F x sa sb sizes fs v i0 acc' = Ok (res', i1) /\ nrel res res'.
  Proof.
    induction fs as [|[[name key] n] fs IH]; intros HI lay i0 acc acc' res i1 EL HR E; cbn [mapM u_read] in *.
    - apply Ok_inj in EL. subst lay. cbn [read_blocks] in E. apply Ok_pair in E. destruct E as [<- <-]. exists acc'. split; [reflexivity|exact HR].
    - cbn [u_block] in EL. destruct (mapM (u_packed sa sb sizes key) (u_spins x n)) as [cs|] eqn:EC; [|discriminate]. cbn [bind] in *.
      destruct (mapM (u_block x sa sb sizes) fs) as [lay'|] eqn:EL'; [|discriminate]. apply Ok_inj in EL. subst lay.
      cbn [read_blocks read_block] in E. destruct (read_spins F cs v i0 []) as [[d j]|] eqn:ER; [|discriminate]. cbn [bind fst snd] in E.
      destruct (@u_spins_rel n cs v i0 [] [] d j) as (d' & E1 & E2); [intros s; reflexivity|exact ER|]. rewrite E1. cbn [bind fst snd].
      eapply IH; [intros e He; apply HI; right; exact He|reflexivity| |exact E]. intros nm. rewrite !dget_dset. destruct (pystr_eq_dec nm name) as [->|]; [|apply HR].
      exists key, n. split; [apply HI; left; reflexivity|exact E2].
  Qed.
End Scaled.

Lemma fold_max_spec l : l <> [] -> In (fold_right Nat.max 0 l) l /\ forall y, In y l -> y <= fold_right Nat.max 0 l.
Proof.
  induction l as [|a l IH]; [congruence|]. intros _. destruct l as [|b l]; [cbn; split; [left; lia|intros y [<-|[]]; lia]|].
  destruct IH as [H1 H2]; [discriminate|]. cbn [fold_right] in *. set (m := Nat.max b (fold_right Nat.max 0 l)) in *. split.
  - destruct (Nat.max_spec a m) as [[_ ->]|[_ ->]]; [right; exact H1|left; reflexivity].
  - intros y [<-|Hy]; [lia|]. specialize (H2 y Hy). lia.
Qed.
Lemma u_factor_spec n spin : firstn n spin <> [] -> most_frequent (firstn n spin) (u_factor n spin).
Proof.
  intros H. unfold u_factor. set (l := firstn n spin) in *.
  destruct (@fold_max_spec (map (fun s => count l s) (dedup l))) as [H1 H2].
  { intros E. apply map_eq_nil in E. destruct l as [|c l']; [congruence|]. assert (In c (dedup (c :: l'))) by (apply dedup_in; left; reflexivity). rewrite E in H0. exact H0. }
  split.
  - apply in_map_iff in H1. destruct H1 as (s & E & _). exists s. exact E.
  - intros s. destruct (in_dec Nat.eq_dec s l) as [I|N]; [|rewrite (proj1 (count_occ_not_In Nat.eq_dec l s) N); lia].
    apply H2. apply in_map_iff. exists s. split; [reflexivity|]. apply dedup_in, I.
Qed.

Lemma nodup_rank (fs : list entry) name k1 n1 k2 n2 : NoDup (map (fun e => fst (fst e)) fs) -> In (name, k1, n1) fs -> In (name, k2, n2) fs -> n1 = n2.
Proof.
  induction fs as [|[[nm k] n] fs IH]; intros ND I1 I2; [destruct I1|]. cbn [map fst] in ND. apply NoDup_cons_iff in ND. destruct ND as [N ND].
  assert (X : forall k' n', In (name, k', n') fs -> nm <> name). { intros k' n' I E. apply N. subst nm. apply in_map_iff. exists (name, k', n'). split; [reflexivity|exact I]. }
  destruct I1 as [E1|I1]; destruct I2 as [E2|I2].
  - congruence.
  - apply X in I2. congruence.
  - apply X in I1. congruence.
  - exact (IH ND I1 I2).
Qed.
Lemma nrel_divided (F : fld) x sa sb fs (m m' : dict pystr (tval F)) : NoDup (map (fun e => fst (fst e)) fs) ->
  (forall name key n, In (name, key, n) fs -> 1 <= n) -> eom_namespace (u_amplitude x sa sb) fs m -> nrel F fs m m' -> divided_by_spin fs m m'.
Proof.
  intros ND H1 [HN1 HN2] HR. split.
  - intros name. specialize (HR name). destruct (dget pystr_eq_dec name m) as [[y|d]|], (dget pystr_eq_dec name m') as [[y'|d']|]; try contradiction; split; congruence.
  - intros name key n d I E. pose proof (HR name) as X. rewrite E in X. destruct (dget pystr_eq_dec name m') as [[y'|d']|]; try contradiction.
    destruct X as (key' & n' & I' & S). assert (n' = n) by exact (@nodup_rank fs _ _ _ _ _ ND I' I). subst n'. exists d'. split; [reflexivity|]. split.
    + intros spin. rewrite (S spin). destruct (dget pystr_eq_dec spin d); cbn; split; congruence.
    + intros spin y Ey. exists (u_factor n spin), (divide_by F (u_factor n spin) y). rewrite (S spin), Ey. split; [reflexivity|]. split; [|split; reflexivity].
      apply u_factor_spec. destruct (HN1 _ _ _ I) as (t & Et & (d0 & -> & Hk & _)). rewrite E in Et. injection Et as <-.
      assert (Hs : In spin (u_spins x n)) by (apply Hk; congruence). pose proof (H1 _ _ _ I) as Hn. destruct (@u_spins_ok x n spin Hn Hs) as [L _].
      intros E0. apply (f_equal (@length nat)) in E0. rewrite firstn_length in E0. cbn in E0. destruct (charged x); lia.
Qed.

Theorem u_round (F : fld) a sa sb x fs : excitations a false x fs -> adapted x fs -> exists size,
  (forall v, length v = size -> exists amps amps', eom_namespace (u_amplitude x sa sb) fs amps /\ u_eom_to_vector F a sa sb x amps = Ok v /\
     u_eom_from_vector F a sa sb x v = Ok amps' /\ divided_by_spin fs amps amps') /\
  (forall v, is_ok (u_eom_from_vector F a sa sb x v) = true -> length v = size) /\
  (no_two_torsion F -> forall amps, eom_namespace (u_amplitude x sa sb) fs amps -> exists v amps0 amps', u_eom_to_vector F a sa sb x amps = Ok v /\ length v = size /\
     same_namespace amps0 amps /\ u_eom_from_vector F a sa sb x v = Ok amps' /\ divided_by_spin fs amps0 amps').
Proof.
  intros (Ef & HNE & ND & Eb & Hc) HA. pose proof (@no_bosons_ok a x Eb Hc) as HNB. destruct (u_sizes_ok sa sb) as (sizes & ES & _).
  assert (H1n : forall name key n, In (name, key, n) fs -> 1 <= n) by (intros name key n I; exact (proj1 (proj2 (proj2 (@key_facts a false x fs name key n Ef I))))).
  assert (HB : forall name key n, In (name, key, n) fs -> exists b, u_block x sa sb sizes (name, key, n) = Ok (name, b) /\ block_ok b /\ block_nodup b /\ match b with BArr _ => True | BSpin cs => cs <> [] end /\ forall t : tval F, block_fits F b t <-> u_amplitude x sa sb key n t).
  { intros name key n I. destruct (@u_block_ok a sa sb x fs sizes Ef HA ES name key n I F) as (cs & E & _ & H1 & H2 & H3 & H4). exists (BSpin cs). cbn [u_block]. rewrite E. split; [reflexivity|]. repeat (split; [assumption|]). exact H4. }
  destruct (@blocks_layout F (u_block x sa sb sizes) _ fs HB) as (lay & EL).
  assert (ELL : u_eom_layout a sa sb x = Ok lay) by (unfold u_eom_layout; rewrite ES, Ef; exact EL).
  assert (HU : forall v amps, read_blocks F lay v 0 [] = Ok (amps, length v) -> eom_namespace (u_amplitude x sa sb) fs amps ->
    exists amps', u_eom_from_vector F a sa sb x v = Ok amps' /\ divided_by_spin fs amps amps').
  { intros v amps E HN. destruct (@u_read_rel F x sa sb sizes fs fs v (incl_refl _) lay 0 [] [] amps (length v) EL) as (amps' & E1 & E2); [intros nm; exact I|exact E|].
    exists amps'. unfold u_eom_from_vector. rewrite ES, Ef. cbn [bind]. rewrite E1. cbn [bind fst snd]. rewrite HNB. cbn [bind]. rewrite Nat.eqb_refl. split; [reflexivity|]. exact (@nrel_divided F x sa sb fs amps amps' ND H1n HN E2). }
  exists (lsize lay). unfold u_eom_to_vector. rewrite ELL. split; [|split].
  - intros v Hv. destruct (@blocks_backward F (u_block x sa sb sizes) _ fs HB lay EL a x HNB HNE v ND Hv) as (amps & E1 & E2 & E3).
    destruct (HU v amps E1 E2) as (amps' & E4 & E5). exists amps, amps'. repeat (split; [assumption|]). exact E5.
  - intros v H. unfold u_eom_from_vector in H. rewrite ES, Ef in H. cbn [bind] in H. destruct (u_read F x sa sb sizes fs v 0 []) as [[r j]|] eqn:E; [|discriminate]. cbn [bind fst snd] in H. rewrite HNB in H. cbn [bind] in H.
    destruct (Nat.eqb_spec j (length v)) as [->|]; [|discriminate].
    assert (X : forall fs' lay', mapM (u_block x sa sb sizes) fs' = Ok lay' -> forall i0 acc res i1, u_read F x sa sb sizes fs' v i0 acc = Ok (res, i1) -> i1 = i0 + lsize lay').
    { clear. induction fs' as [|[[name key] n] fs' IH]; intros lay' EL i0 acc res i1 E; cbn [mapM u_read] in *.
      - apply Ok_inj in EL. subst lay'. apply Ok_pair in E. destruct E as [_ <-]. cbn. lia.
      - cbn [u_block] in EL. destruct (mapM (u_packed sa sb sizes key) (u_spins x n)) as [cs|]; [|discriminate]. cbn [bind] in *.
        destruct (mapM (u_block x sa sb sizes) fs') as [lay2|]; [|discriminate]. apply Ok_inj in EL. subst lay'.
        destruct (u_read_spins F n cs v i0 []) as [[d j]|] eqn:ER; [|discriminate]. cbn [bind fst snd] in E. apply (IH lay2 eq_refl) in E.
        assert (Y : forall cs i0 acc d j, u_read_spins F n cs v i0 acc = Ok (d, j) -> j = i0 + list_sum (map (fun sc => csize (snd sc)) cs)).
        { clear. induction cs as [|[s c] cs IH]; intros i0 acc d j H; cbn [u_read_spins] in H; [apply Ok_pair in H; destruct H as [_ <-]; cbn; lia|].
          unfold read_codec in H. destruct (decode F c _) as [y|]; [|discriminate]. cbn [bind fst snd] in H. apply IH in H. cbn [map list_sum fold_right snd]. unfold list_sum in H. lia. }
        apply Y in ER. change (lsize ((name, BSpin cs) :: lay2)) with (list_sum (map (fun sc => csize (snd sc)) cs) + lsize lay2). lia. }
    specialize (X fs lay EL 0 [] r (length v) E). lia.
  - intros HT amps HR. destruct (@blocks_forward F (u_block x sa sb sizes) _ fs HB lay EL a x HNB HNE amps (or_intror HT) HR) as (v & amps0 & E1 & E2 & E3 & E4).
    assert (HN0 : eom_namespace (u_amplitude x sa sb) fs amps0).
    { destruct HR as [R1 R2]. split.
      - intros name key n I. destruct (R1 _ _ _ I) as (t & Et & (d & -> & Hk & Hy)). specialize (E4 name). rewrite Et in E4. unfold same_entry in E4.
        destruct (dget pystr_eq_dec name amps0) as [[y|d']|]; try contradiction. exists (VSpin d'). split; [reflexivity|]. exists d'. split; [reflexivity|].
        split; [intros spin; rewrite E4; apply Hk|intros spin y; rewrite E4; apply Hy].
      - intros name Hn. apply R2. specialize (E4 name). destruct (dget pystr_eq_dec name amps); [congruence|]. unfold same_entry in E4. destruct (dget pystr_eq_dec name amps0) as [[y|d]|]; contradiction. }
    destruct (HU v amps0 E3 HN0) as (amps' & E5 & E6). exists v, amps0, amps'. repeat (split; [assumption|]). exact E6.
Qed.

(** Bosonic excitations are refused by every conversion. *)
Theorem bosons_refused (F : fld) a sp sa sb x amps v :
  (forall bs, bosonic_cluster_ranks a (which_of x) = Ok bs -> bs <> []) \/ (1 <= frank a /\ 1 <= brank a) ->
  is_ok (r_eom_to_vector F a sp x amps) = false /\ is_ok (g_eom_to_vector F a sp x amps) = false /\ is_ok (u_eom_to_vector F a sa sb x amps) = false /\
  is_ok (r_eom_from_vector F a sp x v) = false /\ is_ok (g_eom_from_vector F a sp x v) = false /\ is_ok (u_eom_from_vector F a sa sb x v) = false.
Proof.
  intros H. destruct (@no_bosons_err a x H) as (e & E).
  assert (TV : forall lay, is_ok (eom_to_vector F lay a x amps) = false).
  { intros lay. unfold eom_to_vector. destruct lay; [|reflexivity]. cbn [bind]. destruct (mapM _ _); [|reflexivity]. cbn [bind]. rewrite E. reflexivity. }
  assert (FV : forall lay, is_ok (rg_eom_from_vector F lay a x v) = false).
  { intros lay. unfold rg_eom_from_vector. destruct lay; [|reflexivity]. cbn [bind]. destruct (read_blocks _ _ _ _ _); [|reflexivity]. cbn [bind]. rewrite E. reflexivity. }
  split; [apply TV|]. split; [apply TV|]. split; [apply TV|]. split; [apply FV|]. split; [apply FV|].
  unfold u_eom_from_vector. destruct (u_sizes sa sb); [|reflexivity]. cbn [bind]. destruct (fermionic_cluster_ranks _ _ _); [|reflexivity]. cbn [bind]. destruct (u_read _ _ _ _ _ _ _ _ _); [|reflexivity]. cbn [bind]. rewrite E. reflexivity.
Qed.
