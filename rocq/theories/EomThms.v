(** Proofs: conversion between amplitudes and vectors in the equation-of-motion solvers. *)
From Coq Require Import String Permutation.
From Verif Require Import Base ListAux Alg ArrModel ArrProofs PermModel PermSpec PermProps TensorModel TensorSpec TensorProps SpaceModel AnsatzModel AnsatzSpec AnsatzProofs AnsatzRanks
  GroupProofs SpinProofs MiscProofs DampProofs KernelProofs VecModel VecSpec VecProofs VecThms CcModel CcSpec EomModel EomSpec.
Set Implicit Arguments.
Local Open Scope nat_scope.
Local Open Scope list_scope.

(** * Keys of the excitations. *)
Definition orb_check : bool :=
  forallb (fun rs => forallb (fun w => forallb (fun e : entry => forallb (fun c => existsb (Nat.eqb c) (str "oOvV")) (snd (fst e)) &&
     (length (snd (fst e)) <=? 8) && (1 <=? snd e) &&
     ((4 =? snd e) || (length (snd (fst e)) =? match w with Wip | Wea => 2 * snd e - 1 | _ => 2 * snd e end)) &&
     match w with Wip | Wea => true | _ => length (snd (fst e)) =? 2 * snd e end) (fermion_table rs w))
    [Wt; Wl; Wip; Wea; Wee]) [true; false].
Lemma orb_check_true : orb_check = true. Proof. vm_compute. reflexivity. Qed.
Lemma key_facts a rspin x fs name key n : fermionic_cluster_ranks a rspin (which_of x) = Ok fs -> In (name, key, n) fs ->
  (forall c, In c key -> orb c) /\ length key <= 8 /\ 1 <= n /\ (n < 4 \/ x = EE -> length key = if charged x then 2 * n - 1 else 2 * n).
Proof.
  intros Ef Hin. destruct (@ferm_inv _ _ _ _ Ef) as (_ & _ & H). specialize (H _ Hin).
  pose proof orb_check_true as X. unfold orb_check in X. rewrite forallb_forall in X. specialize (X rspin).
  assert (Hr : In rspin [true; false]) by (destruct rspin; cbn; auto). specialize (X Hr). rewrite forallb_forall in X. specialize (X (which_of x)).
  assert (Hw : In (which_of x) [Wt; Wl; Wip; Wea; Wee]) by (destruct x; cbn; auto 10). specialize (X Hw). rewrite forallb_forall in X. specialize (X _ H).
  cbn [fst snd] in X. rewrite !andb_true_iff in X. destruct X as ((((X1 & X2) & X3) & X4) & X5).
  apply Nat.leb_le in X2. apply Nat.leb_le in X3. split.
  - intros c Hc. rewrite forallb_forall in X1. specialize (X1 c Hc). apply existsb_exists in X1. destruct X1 as (y & Hy & E). apply Nat.eqb_eq in E. subst y. exact Hy.
  - split; [exact X2|]. split; [exact X3|]. intros [Hn| ->].
    + apply orb_true_iff in X4. destruct X4 as [X4|X4]; [apply Nat.eqb_eq in X4; lia|]. apply Nat.eqb_eq in X4. destruct x; exact X4.
    + cbn in X5 |- *. apply Nat.eqb_eq in X5. exact X5.
Qed.

Lemma no_bosons_ok a x : bosonic_cluster_ranks a (which_of x) = Ok [] -> frank a = 0 \/ brank a = 0 -> no_bosons a x = Ok tt.
Proof.
  intros E H. unfold no_bosons. rewrite E. cbn [bind].
  assert (EC : coupling_cluster_ranks a (which_of x) = Ok []).
  { unfold coupling_cluster_ranks. destruct H as [-> | ->]; [reflexivity|]. replace (flat_map _ _) with (@nil (nat * nat)); [reflexivity|].
    induction (seq 1 (frank a)) as [|y l IH]; [reflexivity|]. cbn. exact IH. }
  rewrite EC. reflexivity.
Qed.
Lemma no_bosons_err a x : (forall bs, bosonic_cluster_ranks a (which_of x) = Ok bs -> bs <> []) \/ (1 <= frank a /\ 1 <= brank a) -> exists e, no_bosons a x = Err e.
Proof.
  intros H. unfold no_bosons. destruct (bosonic_cluster_ranks a (which_of x)) as [bs|e] eqn:E; [|eexists; reflexivity]. cbn [bind].
  destruct bs as [|b bs]; [|eexists; reflexivity]. destruct H as [H|[H1 H2]]; [exfalso; apply (H [] eq_refl); reflexivity|].
  unfold coupling_cluster_ranks. destruct (frank a) as [|f]; [lia|]. destruct (brank a) as [|b]; [lia|]. cbn [seq map flat_map app mapM].
  unfold cadapt. destruct x; eexists; reflexivity.
Qed.

(** * A list of blocks, one for each entry. *)
Section Blocks.
  Variable K : rng.
  Variable B : entry -> result (pystr * block).
  Variable P : pystr -> nat -> tval K -> Prop.
  Variable fs : list entry.
  Hypothesis HB : forall name key n, In (name, key, n) fs -> exists b, B (name, key, n) = Ok (name, b) /\
    block_ok b /\ block_nodup b /\ match b with BArr _ => True | BSpin cs => cs <> [] end /\
    forall t : tval K, block_fits K b t <-> P key n t.

  Lemma blocks_layout : exists lay, mapM B fs = Ok lay.
  Proof. apply mapM_total. intros [[name key] n] Hin. destruct (HB _ _ _ Hin) as (b & E & _). eexists; exact E. Qed.
  Variable lay : layout.
  Hypothesis EL : mapM B fs = Ok lay.
  Lemma blocks_F2 : Forall2 (fun e nb => B e = Ok nb) fs lay.
  Proof. apply mapM_F2. exact EL. Qed.
  Lemma blocks_names : map fst lay = map (fun e => fst (fst e)) fs.
  Proof.
    pose proof blocks_F2 as H. assert (HI : forall e, In e fs -> exists b, B e = Ok (fst (fst e), b)).
    { intros [[name key] n] Hin. destruct (HB _ _ _ Hin) as (b & E & _). exists b. exact E. }
    clear HB EL. induction H as [|e nb l l' E _ IH]; [reflexivity|]. cbn [map]. rewrite IH by (intros; apply HI; right; assumption).
    destruct (HI e (or_introl eq_refl)) as (b & E'). rewrite E in E'. apply Ok_inj in E'. subst nb. reflexivity.
  Qed.
  Lemma blocks_in name b : In (name, b) lay -> exists key n, In (name, key, n) fs /\ B (name, key, n) = Ok (name, b).
  Proof.
    intros Hin. pose proof blocks_F2 as H. assert (X : exists e, In e fs /\ B e = Ok (name, b)).
    { clear HB EL. induction H as [|e nb l l' E _ IH]; [destruct Hin|]. destruct Hin as [->|Hin]; [exists e; split; [left; reflexivity|exact E]|].
      destruct (IH Hin) as (e' & I & E'). exists e'. split; [right; exact I|exact E']. }
    destruct X as ([[nm key] n] & I & E). destruct (HB _ _ _ I) as (b' & E' & _). assert (nm = name) by congruence. subst nm. exists key, n. split; assumption.
  Qed.
  Lemma blocks_of name key n b : In (name, key, n) fs -> B (name, key, n) = Ok (name, b) -> In (name, b) lay.
  Proof.
    intros I E. pose proof blocks_F2 as H. clear HB EL. induction H as [|e nb l l' E' _ IH]; [destruct I|]. destruct I as [->|I]; [left; congruence|right; apply IH, I].
  Qed.
  Lemma blocks_good : layout_ok lay /\ Forall (fun nb => block_nodup (snd nb)) lay.
  Proof.
    split; apply Forall_forall; intros [name b] Hin; destruct (@blocks_in _ _ Hin) as (key & n & I & E); destruct (HB _ _ _ I) as (b' & E' & H1 & H2 & _);
      rewrite E in E'; apply Ok_inj in E'; apply pair_equal_spec in E'; destruct E' as [_ ->]; cbn [snd]; assumption.
  Qed.
  Lemma blocks_chunk : fs <> [] -> some_chunk lay.
  Proof.
    intros HN. destruct fs as [|[[name key] n] fs'] eqn:EF; [congruence|]. rewrite <- EF in *. assert (I : In (name, key, n) fs) by (rewrite EF; left; reflexivity).
    destruct (HB _ _ _ I) as (b & E & _ & _ & H & _). exists (name, b). split; [exact (@blocks_of _ _ _ _ I E)|exact H].
  Qed.
  Lemma blocks_fits amps : eom_namespace P fs amps <-> layout_fits K lay amps /\ forall name, dget pystr_eq_dec name amps <> None -> In name (map fst lay).
  Proof.
    rewrite blocks_names. unfold eom_namespace. split; intros [H1 H2]; (split; [|exact H2]).
    - intros name b Hin. destruct (@blocks_in _ _ Hin) as (key & n & I & E). destruct (HB _ _ _ I) as (b' & E' & _ & _ & _ & HP).
      rewrite E in E'. apply Ok_inj in E'. apply pair_equal_spec in E'. destruct E' as [_ <-]. destruct (H1 _ _ _ I) as (t & Et & Ht). exists t. split; [exact Et|apply HP, Ht].
    - intros name key n I. destruct (HB _ _ _ I) as (b & E & _ & _ & _ & HP). destruct (H1 _ _ (@blocks_of _ _ _ _ I E)) as (t & Et & Ht). exists t. split; [exact Et|apply HP, Ht].
  Qed.

  Variables (a : ansatz) (x : sector).
  Hypothesis (HNB : no_bosons a x = Ok tt) (HNE : fs <> []).
  Lemma to_vec amps vs : mapM (write_block K amps) lay = Ok vs -> eom_to_vector K (Ok lay) a x amps = Ok (concat (concat vs)).
  Proof.
    intros E. unfold eom_to_vector. cbn [bind]. rewrite E, HNB. cbn [bind]. pose proof (@to_vector_ok K lay amps vs (blocks_chunk HNE) E) as X.
    unfold to_vector in X. rewrite E in X. exact X.
  Qed.
  Lemma blocks_forward amps : Forall (fun nb => block_raw (snd nb)) lay \/ no_two_torsion K -> eom_namespace P fs amps ->
    exists v amps', eom_to_vector K (Ok lay) a x amps = Ok v /\ length v = lsize lay /\ read_blocks K lay v 0 [] = Ok (amps', length v) /\ same_namespace amps' amps.
  Proof.
    intros HT HR. apply blocks_fits in HR. destruct HR as [HF HO]. destruct blocks_good as [G1 G2].
    destruct (@layout_forward K lay amps HT G1 HF) as (vs & E1 & E2 & E3). destruct (E3 [] [] []) as (res & E4 & E5). cbn [app length] in E4. rewrite app_nil_r in E4.
    exists (concat (concat vs)), res. split; [apply to_vec, E1|]. split; [exact E2|]. split; [rewrite E2; exact E4|]. exact (@same_ns_from K lay amps res HO E5).
  Qed.
  Lemma blocks_backward v : NoDup (map (fun e => fst (fst e)) fs) -> length v = lsize lay ->
    exists amps, read_blocks K lay v 0 [] = Ok (amps, length v) /\ eom_namespace P fs amps /\ eom_to_vector K (Ok lay) a x amps = Ok v.
  Proof.
    intros ND Hv. rewrite <- blocks_names in ND. destruct blocks_good as [G1 G3].
    destruct (@layout_backward K lay v G1 G3 ND 0 []) as (res & vs & E1 & E2 & E3 & E4 & E5); [lia|].
    exists res. rewrite Hv. split; [exact E1|]. split.
    - apply blocks_fits. split; [exact E4|]. intros name H. destruct (in_dec pystr_eq_dec name (map fst lay)) as [I|N]; [exact I|]. exfalso. apply H. rewrite E5 by exact N. reflexivity.
    - rewrite (to_vec _ E2), E3. f_equal. cbn [Nat.add]. unfold slice. rewrite Nat.sub_0_r. cbn [skipn]. rewrite <- Hv. apply firstn_all.
  Qed.
End Blocks.

(** * The blocks of the three classes. *)
Lemma r_block_ok (K : rng) a sp x fs name key n : fermionic_cluster_ranks a true (which_of x) = Ok fs -> In (name, key, n) fs ->
  exists b, r_block sp (name, key, n) = Ok (name, b) /\ block_ok b /\ block_nodup b /\ block_raw b /\ match b with BArr _ => True | BSpin cs => cs <> [] end /\
    forall t : tval K, block_fits K b t <-> r_amplitude sp key n t.
Proof.
  intros Ef I. destruct (@key_facts _ _ _ _ _ _ _ Ef I) as (HO & _). destruct (@key_shape_total sp key HO) as (s & Es).
  exists (BArr (Raw (prodn s) s)). unfold r_block. rewrite Es. cbn [bind]. split; [reflexivity|]. split; [reflexivity|]. split; [exact Logic.I|]. split; [exact Logic.I|]. split; [exact Logic.I|].
  apply key_shape_spec in Es. intros t. destruct t as [y|d]; cbn [block_fits fits].
  - split; [intros [W E]; exists y; subst s; repeat split; assumption|]. intros (y' & E & W & Z). injection E as <-. split; [exact W|exact (sized_fun Z Es)].
  - split; [intros []|intros (y & E & _); discriminate].
Qed.

Lemma sizes_dict sp key : (forall c, In c key -> orb c) -> exists sizes, mapM (fun k => (m <- sp_size sp k ;; Ok (k, m))%py) key = Ok sizes /\
  forall c, In c key -> exists m, sp_size sp c = Ok m /\ dget Nat.eq_dec c sizes = Some m.
Proof.
  induction key as [|k key IH]; intros HO; [exists []; split; [reflexivity|intros c []]|].
  destruct IH as (sizes & E & H); [intros; apply HO; right; assumption|]. destruct (@orb_size sp k) as (m & Em); [apply HO; left; reflexivity|].
  exists ((k, m) :: sizes). cbn [mapM]. rewrite Em. cbn [bind]. rewrite E. split; [reflexivity|]. intros c Hc. cbn [dget].
  destruct (Nat.eq_dec c k) as [->|N]; [exists m; split; [exact Em|destruct (Nat.eq_dec k k); congruence]|].
  destruct Hc as [Hc|Hc]; [congruence|]. destruct (H c Hc) as (m' & E1 & E2). exists m'. split; [exact E1|]. destruct (Nat.eq_dec k c); [congruence|]. exact E2.
Qed.
Lemma g_block_ok (K : rng) a sp x fs name key n : fermionic_cluster_ranks a false (which_of x) = Ok fs -> In (name, key, n) fs ->
  exists b, g_block sp (name, key, n) = Ok (name, b) /\ block_ok b /\ block_nodup b /\ match b with BArr _ => True | BSpin cs => cs <> [] end /\
    forall t : tval K, block_fits K b t <-> g_amplitude sp key n t.
Proof.
  intros Ef I. destruct (@key_facts _ _ _ _ _ _ _ Ef I) as (HO & _). destruct (@key_shape_total sp key HO) as (s & Es).
  destruct (@sizes_dict sp (dedup key)) as (sizes & E1 & H1). { intros c Hc. apply HO. rewrite dedup_in in Hc. exact Hc. }
  pose proof Es as Hs. apply key_shape_spec in Hs. pose proof (Forall2_len Hs) as Hl.
  assert (Hn : forall i, i < length key -> sp_size sp (nth i key 0) = Ok (nth i s 0)) by (intros i Hi; exact (F2_nth' 0 0 Hs Hi)).
  assert (HE : extents_ok key s). { split; [congruence|]. intros i j Hi Hj E. pose proof (Hn i Hi) as X. rewrite E, (Hn j Hj) in X. apply Ok_inj in X. congruence. }
  assert (HD : describes key s sizes).
  { intros i Hi. destruct (H1 (nth i key 0)) as (m & E & ->); [rewrite dedup_in; apply nth_In, Hi|]. rewrite (Hn i Hi) in E. apply Ok_inj in E. congruence. }
  destruct (@C07_compressed_size Z_rng key sizes (full s 0%Z) HE HD) as (c & _ & En & _).
  exists (BArr (Packed key (length (dat c)) s)). unfold g_block. rewrite E1. cbn [bind]. rewrite En. cbn [bind]. rewrite Es. cbn [bind].
  split; [reflexivity|]. split; [split; [exact HE|exists sizes; split; assumption]|]. split; [exact Logic.I|]. split; [exact Logic.I|].
  intros t. destruct t as [y|d]; cbn [block_fits fits].
  - split; [intros (W & E & A); exists y; subst s; repeat split; assumption|]. intros (y' & E & W & Z & A). injection E as <-. split; [exact W|]. split; [exact (sized_fun Z Hs)|exact A].
  - split; [intros []|intros (y & E & _); discriminate].
Qed.

Lemma u_spins_ok x n spin : 1 <= n -> In spin (u_spins x n) -> length spin = (if charged x then 2 * n - 1 else 2 * n) /\ forall c, In c spin -> spin_of c.
Proof.
  intros Hn Hs. unfold u_spins in Hs. destruct (charged x); [|exact (spins_ok _ _ Hs)].
  destruct (C04_spin_unique_excited n Hn) as (H1 & _). apply H1 in Hs. apply C04_spin_full in Hs. destruct Hs as (t & [L T] & ->).
  assert (N : t ++ t <> []) by (destruct t; [cbn in L; lia|discriminate]).
  pose proof (app_removelast_last 0 N) as R. split.
  - apply (f_equal (@length nat)) in R. rewrite !app_length in R. cbn [length] in R. lia.
  - intros c Hc. assert (Hc' : In c (t ++ t)) by (rewrite R; apply in_or_app; left; exact Hc). apply in_app_or in Hc'. unfold spin_of. destruct Hc'; apply T; assumption.
Qed.
Lemma u_spins_nodup x n : 1 <= n -> NoDup (u_spins x n) /\ u_spins x n <> [].
Proof.
  intros Hn. unfold u_spins. destruct (charged x); [|apply spins_nodup].
  destruct (C04_spin_unique_excited n Hn) as (_ & H2 & H3). split; [exact H3|]. intros E. destruct (C04_spin_full_once n true) as [_ L].
  destruct (generate_spin_combinations n true false) as [|s l] eqn:G; [cbn in L; pose proof (Nat.pow_nonzero 2 n); lia|].
  destruct (H2 s (or_introl eq_refl)) as (s' & Hs' & _). rewrite E in Hs'. destruct Hs'.
Qed.

Section UBlock.
  Variables (a : ansatz) (sa sb : space) (x : sector) (fs : list entry) (sizes : dict pystr nat).
  Hypotheses (Ef : fermionic_cluster_ranks a false (which_of x) = Ok fs) (HA : adapted x fs) (ES : u_sizes sa sb = Ok sizes).
  Variables (name key : pystr) (n : nat).
  Hypothesis I : In (name, key, n) fs.
  Lemma u_one spin : In spin (u_spins x n) ->
    exists sub m s, u_packed sa sb sizes key spin = Ok (spin, Packed sub m s) /\ codec_ok (Packed sub m s) /\ spin_sized_by sa sb key spin s /\
      length sub = length key /\
      (forall i j, i < length key -> j < length key -> (nth i sub 0 = nth j sub 0 <-> nth i key 0 = nth j key 0 /\ nth i spin 0 = nth j spin 0)).
  Proof.
    intros Hs. destruct (@key_facts _ _ _ _ _ _ _ Ef I) as (HO & H8 & H1 & HL). destruct (@u_spins_ok x n spin H1 Hs) as [L1 L2].
    specialize (HL (HA _ _ _ I)). apply u_packed_ok; [exact ES|exact HO|exact L2|congruence|lia].
  Qed.
  Lemma u_block_ok (K : rng) : exists cs, mapM (u_packed sa sb sizes key) (u_spins x n) = Ok cs /\ map fst cs = u_spins x n /\
    block_ok (BSpin cs) /\ block_nodup (BSpin cs) /\ cs <> [] /\ forall t : tval K, block_fits K (BSpin cs) t <-> u_amplitude x sa sb key n t.
  Proof.
    destruct (@key_facts _ _ _ _ _ _ _ Ef I) as (_ & _ & H1 & _). destruct (@u_spins_nodup x n H1) as [ND NE].
    destruct (@mapM_total _ _ (u_packed sa sb sizes key) (u_spins x n)) as (cs & E).
    { intros spin Hs. destruct (@u_one _ Hs) as (sub & m & s & E & _). eexists; exact E. }
    exists cs. split; [exact E|]. apply mapM_F2 in E.
    assert (P1 : map fst cs = u_spins x n).
    { assert (H : forall spin, In spin (u_spins x n) -> forall p, u_packed sa sb sizes key spin = Ok p -> fst p = spin).
      { intros spin Hs p E'. destruct (@u_one _ Hs) as (sub & m & s & E'' & _). rewrite E' in E''. apply Ok_inj in E''. subst p. reflexivity. }
      clear ND NE. revert E H. generalize (u_spins x n). intros l E. induction E as [|y z l l' E' _ IH]; intros HI; [reflexivity|].
      cbn [map]. f_equal; [apply HI; [left; reflexivity|exact E']|apply IH; intros; apply HI; [right|]; assumption]. }
    assert (P2 : forall spin c, In (spin, c) cs -> In spin (u_spins x n) /\ exists sub m s, c = Packed sub m s /\ codec_ok c /\ spin_sized_by sa sb key spin s /\
      length sub = length key /\ (forall i j, i < length key -> j < length key -> (nth i sub 0 = nth j sub 0 <-> nth i key 0 = nth j key 0 /\ nth i spin 0 = nth j spin 0))).
    { intros spin c Hi. destruct (F2_in_r _ E Hi) as (spin' & Hs & E'). destruct (@u_one _ Hs) as (sub & m & s & E'' & Hc & Hz & Hl & He).
      rewrite E' in E''. apply Ok_pair in E''. destruct E'' as [<- ->]. split; [exact Hs|]. exists sub, m, s. repeat (split; [assumption || reflexivity|]). exact He. }
    split; [exact P1|]. split; [|split; [|split]].
    - apply Forall_forall. intros [spin c] Hc. destruct (P2 _ _ Hc) as (_ & sub & m & s & _ & Hok & _). exact Hok.
    - cbn [block_nodup]. rewrite P1. exact ND.
    - intros ->. apply NE. rewrite <- P1. reflexivity.
    - assert (HI : forall spin, In spin (u_spins x n) -> exists c, In (spin, c) cs).
      { intros spin Hs. rewrite <- P1 in Hs. apply in_map_iff in Hs. destruct Hs as ([s c] & <- & Hs). exists c. exact Hs. }
      intros t. destruct t as [y|d]; cbn [block_fits]; [split; [intros []|intros (d & E' & _); discriminate]|]. rewrite P1. split.
      + intros [H2 H3]. exists d. split; [reflexivity|]. split.
        * intros spin. split; [apply H3|]. intros Hs. destruct (HI _ Hs) as (c & Hc). destruct (H2 _ _ Hc) as (z & Ez & _). congruence.
        * intros spin z Ez. assert (Hs : In spin (u_spins x n)) by (apply H3; congruence). destruct (HI _ Hs) as (c & Hc). destruct (H2 _ _ Hc) as (z' & Ez' & W & Hfit).
          rewrite Ez in Ez'. injection Ez' as <-. destruct (P2 _ _ Hc) as (_ & sub & m & s & -> & Hok & Hz & Hl & He). destruct Hfit as [<- HAs].
          split; [exact W|]. split; [exact Hz|]. exact (proj1 (@antisym_iff K key spin sub z Hl He) HAs).
      + intros (d' & E' & Hk & Hx). injection E' as <-. split; [|intros spin Hs; apply Hk, Hs].
        intros spin c Hc. destruct (P2 _ _ Hc) as (Hs & sub & m & s & -> & Hok & Hz & Hl & He). apply Hk in Hs. destruct (dget pystr_eq_dec spin d) as [z|] eqn:Ez; [|congruence].
        exists z. split; [reflexivity|]. destruct (Hx _ _ Ez) as (W & Z & A). split; [exact W|]. split; [exact (spin_sized_fun Z Hz)|]. exact (proj2 (@antisym_iff K key spin sub z Hl He) A).
  Qed.
End UBlock.
