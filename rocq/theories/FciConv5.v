(** Unrestricted cluster amplitudes to coefficients and back, and to CI vectors and back. *)
From Coq Require Import String ZArith Lia Field.
From Verif Require Import Base Alg ArrModel ArrProofs PermModel PermSpec TensorModel TensorSpec SymmProofs EinsumModel EinsumProofs EinPathModel SpaceModel SpaceSpec AnsatzModel VecModel VecSpec GroupProofs ListAux CcModel CcThms CgModel CgSpec CgFormSpec CgNames CgRun CgRelSpec CgLagSpec CgCompare CgCompareProofs CgPolyProofs CgDens CgEomThms CgExpSpec CgExp FciModel FciSpec FciProofs FciThms FciConvModel FciConvSpec FciConv1 FciConv2 FciConv3 FciConvSwap FciConv4.
Set Implicit Arguments.
Local Open Scope list_scope.
Local Open Scope nat_scope.

Lemma cc_ne : Cluster <> Coefficient. Proof. discriminate. Qed.
Lemma cc_ne' : Coefficient <> Cluster. Proof. discriminate. Qed.
Definition factor_of (s : pystr) : nat := spins_factor (length s / 2) s.
Lemma factor_comb n nb : 1 <= n <= 4 -> nb <= n -> factor_of (comb n nb) = spins_factor n (comb n nb).
Proof. intros Hn Hb. unfold factor_of. rewrite comb_length by assumption. rewrite Nat.mul_comm, Nat.div_mul by discriminate. reflexivity. Qed.

Section Main.
  Variable F : fld.
  Variable method : option nat.
  Variable path : list (list nat) -> list nat -> list (list nat) -> list contraction.
  Variable sz : cls -> nat.
  Hypothesis H0 : characteristic_zero F.
  Hypothesis HP : path_ok path.
  Local Open Scope rng_scope.
  Add Field FfieldFciConv5 : (fth F).
  Local Notation amps_t := (dict pystr (tval F)).

  (** The final division. *)
  Lemma scale_all_ok m (d : amps_t) : (m <= 4)%nat -> (forall n nb, (1 <= n <= m)%nat -> (nb <= n)%nat -> block d (t_name n) (comb n nb) <> None) ->
    exists d', scale_all F m d = Ok d' /\ forall n nb x, (1 <= n <= m)%nat -> (nb <= n)%nat -> block d (t_name n) (comb n nb) = Some x -> block d' (t_name n) (comb n nb) = Some (divide F x (spins_factor n (comb n nb))).
  Proof.
    intros Hm Hd. unfold scale_all. rewrite scale_flat. destruct (@scale_list F (pairs m) (pairs_nodup Hm) d) as (d' & E & G & _).
    - intros [n c] Hp. unfold pairs in Hp. apply in_flat_map in Hp as (n' & Hn & Hp). apply in_map_iff in Hp as (c' & Ec & Hc). injection Ec as <- <-. apply in_seq in Hn.
      apply in_comb in Hc as (nb & Hb & ->); [|lia]. cbn [fst snd]. apply Hd; lia.
    - exists d'. split; [exact E|]. intros n nb x Hn Hb Hx. apply (G (n, comb n nb) x); [|exact Hx]. unfold pairs. apply in_flat_map. exists n. split; [apply in_seq; lia|]. apply in_map, comb_in; lia.
  Qed.
  Lemma divide_at x k idx : aget 0 (divide F x (S k)) idx = coef F 1 (Pos.of_nat (S k)) * aget 0 x idx.
  Proof.
    assert (Z : (fun z : F => fdiv z (rnat (S k))) 0 = 0) by (cbn beta; rewrite (divide_coef H0); ring).
    unfold divide. rewrite (@aget_map F _ Z). apply (divide_coef H0).
  Qed.
  Lemma divide_wf x k : wf x -> wf (divide F x k).
  Proof. unfold wf, divide, map_arr. cbn [dat shp]. rewrite map_length. trivial. Qed.

  (** Antisymmetry from the exchanges of the first index of each kind. *)
  Lemma by_swaps B S T (eB : env F) nm ks n nb x : (1 <= n <= 4)%nat -> (nb <= n)%nat -> symmetric sz S B eB -> of_kinds F sz ks x ->
    (forall idx, inb (map sz ks) idx -> aget 0 x idx = value sz eB (fst (CgFormSpec.lookup T nm ks)) (snd (CgFormSpec.lookup T nm ks)) idx) ->
    length ks = (2 * n)%nat -> (forall i j, (i < j < 2 * n)%nat -> first_kind n nb i = true -> same_kind n nb i j = true -> swap_check B S T nm ks n i j = true) ->
    spin_antisymmetric (excitation_key n) (comb n nb) x.
  Proof.
      intros Hn4 Hb HS [Wx Sx] Gx KL HSw.
      assert (SL : length (shp x) = (2 * n)%nat) by (rewrite Sx, map_length; exact KL).
      assert (One : forall i j, (i < j < 2 * n)%nat -> first_kind n nb i = true -> same_kind n nb i j = true -> nth i (shp x) 0%nat = nth j (shp x) 0%nat /\
                forall idx, inb (shp x) idx -> aget 0 x (exchange i j idx) = - aget 0 x idx).
      { intros i j Hij Hf Hs. pose proof (HSw i j Hij Hf Hs) as C. unfold swap_check in C. rewrite !Bool.andb_true_iff, Bool.negb_true_iff, Nat.eqb_eq in C. destruct C as (((Ek & Nt) & Pm) & C).
        assert (Es : nth i (shp x) 0%nat = nth j (shp x) 0%nat).
        { rewrite Sx. rewrite !nth_indep with (d := 0%nat) (d' := sz 0%nat) by (rewrite map_length, KL; lia). rewrite !map_nth, Ek. reflexivity. }
        split; [exact Es|]. intros idx Hi.
        pose (e := fun y : ref => if Pos.eqb y nm then Some x else None : option (arr F)).
        assert (Ee : e nm = Some x) by (unfold e; rewrite Pos.eqb_refl; reflexivity).
        destruct (@computes_sound _ _ _ _ _ _ C F sz H0 (splits_id sz) method path HP eB e) as (r & R & V).
        - exact HS.
        - intros y cs [Ey|[]]. apply pair_equal_spec in Ey as [<- <-]. exists x. split; [exact Ee|split; assumption].
        - intros y cs [Ey|[]] pat js Hp Hj. apply pair_equal_spec in Ey as [<- <-]. rewrite patterns_id in Hp. destruct Hp as [<-|[]]. rewrite Ee. cbn [tens].
          rewrite places_id by (apply inb_length in Hj; rewrite map_length in Hj; exact Hj). apply Gx, Hj.
        - specialize (V 0%nat n_t1 ks eq_refl ks idx). rewrite patterns_id in V. specialize (V (or_introl eq_refl)). rewrite <- Sx in V. specialize (V Hi).
          assert (IL : length idx = (2 * n)%nat) by (apply inb_length in Hi; congruence).
          rewrite places_id in V by (etransitivity; [exact IL|symmetry; exact KL]). change (value sz eB _ _ idx) with (0 : F) in V.
          assert (Pm' : Permutation.Permutation (seq 0 (length (shp x))) (exchange i j (seq 0 (2 * n)))) by (apply is_perm_iff; rewrite SL; exact Pm).
          assert (Et : map (fun k => nth k (shp x) 0%nat) (exchange i j (seq 0 (2 * n))) = shp x).
          { rewrite exchange_map by (rewrite seq_length; lia). rewrite <- SL, map_nth_seq. apply nth_ext with (d := 0%nat) (d' := 0%nat); [apply exchange_length|]. intros k Hk. rewrite exchange_length in Hk.
            rewrite nth_exchange by exact Hk. destruct (Nat.eqb_spec k i) as [->|]; [congruence|]. destruct (Nat.eqb_spec k j) as [->|]; congruence. }
          unfold run in R. cbn [p_body swap_prog exec exec1 eval_expr eval_rhs p_out mapM] in R. unfold fetch in R at 1. rewrite Ee in R. cbn [bind] in R.
          rewrite (transpose_ok _ _ Pm'), Et in R. cbn [bind] in R.
          set (y := tab (shp x) (fun idx => aget 0 x (unperm (exchange i j (seq 0 (2 * n))) idx))) in R.
          unfold fetch, bindv in R. cbn [Pos.eqb] in R. rewrite ?Pos.eqb_refl in R. rewrite Nt, Ee in R. cbn [bind] in R.
          unfold arr_addM in R. destruct (list_eq_dec Nat.eq_dec (shp y) (shp x)) as [_|Ns]; [|destruct (Ns eq_refl)]. cbn [bind] in R. injection R as <-.
          unfold entry in V. cbn [nth_error] in V. rewrite aget_add in V; [|apply tab_wf|exact Wx|reflexivity].
          assert (Ey : aget 0 y idx = aget 0 x (exchange i j idx)) by (unfold y; rewrite aget_tab by exact Hi; rewrite unperm_exchange by (lia || exact IL); reflexivity).
          rewrite Ey in V. transitivity (aget 0 x (exchange i j idx) + aget 0 x idx - aget 0 x idx); [ring|rewrite V; ring]. }
      assert (Fst : forall i, (i < 2 * n)%nat -> exists f, (f <= i)%nat /\ first_kind n nb f = true /\ same_kind n nb f i = true).
      { intros i. induction i as [i IH] using (well_founded_induction lt_wf). intros Hi. destruct (first_kind n nb i) eqn:Ef.
        - exists i. split; [lia|]. split; [exact Ef|]. unfold same_kind. rewrite !Nat.eqb_refl. reflexivity.
        - unfold first_kind in Ef. rewrite <- Bool.not_true_iff_false, forallb_forall in Ef.
          assert (Ex2 : exists k, In k (seq 0 i) /\ same_kind n nb k i = true).
          { apply existsb_exists. destruct (existsb _ _) eqn:E2; [reflexivity|]. exfalso. apply Ef. intros k Hk. destruct (same_kind n nb k i) eqn:E3; [|reflexivity].
            cbn [negb]. rewrite <- E2. apply existsb_exists. exists k. split; assumption. }
          destruct Ex2 as (k & Hk & Ek). apply in_seq in Hk. destruct (IH k) as (f & Lf & Ff & Fs); [lia|lia|]. exists f. split; [lia|]. split; [exact Ff|].
          unfold same_kind in *. rewrite !Bool.andb_true_iff, !Nat.eqb_eq in *. destruct Fs, Ek. split; congruence. }
      assert (Lt : forall i j, (i < j < 2 * n)%nat -> same_kind n nb i j = true -> forall idx, inb (shp x) idx -> aget 0 x (exchange i j idx) = - aget 0 x idx).
      { intros i j Hij Hs idx Hi. destruct (Fst i) as (f & Lf & Ff & Fs); [lia|]. destruct (Nat.eq_dec f i) as [->|Nf]; [apply (One i j Hij Ff Hs), Hi|].
        assert (Fj : same_kind n nb f j = true) by (unfold same_kind in *; rewrite !Bool.andb_true_iff, !Nat.eqb_eq in *; destruct Fs, Hs; split; congruence).
        destruct (One f i) as [S1 A1]; [lia|assumption..|]. destruct (One f j) as [S2 A2]; [lia|assumption..|].
        assert (IL : length idx = (2 * n)%nat) by (apply inb_length in Hi; congruence).
        rewrite (@exchange_three f i j idx) by lia.
        assert (I1 : inb (shp x) (exchange f i idx)) by (apply exchange_inb; [lia|lia|assumption|assumption]).
        assert (I2 : inb (shp x) (exchange f j (exchange f i idx))) by (apply exchange_inb; [lia|lia|assumption|assumption]).
        rewrite (A1 _ I2), (A2 _ I1), (A1 _ Hi). ring. }
      intros idx i j Hi Li Lj Nij Hk Hc. rewrite key_length in Li, Lj.
      assert (Hs : same_kind n nb i j = true) by (unfold same_kind; rewrite Hk, Hc, !Nat.eqb_refl; reflexivity).
      assert (Hs' : same_kind n nb j i = true) by (unfold same_kind; rewrite Hk, Hc, !Nat.eqb_refl; reflexivity).
      destruct (Nat.lt_ge_cases i j) as [L|L]; [apply Lt; [lia|assumption..]|]. rewrite exchange_sym. apply Lt; [lia|assumption..].
    Qed.

  Section TCT.
    Variable m : nat.
    Hypothesis Hm : (1 <= m <= 4)%nat.
    Variable amps : amps_t.
    Hypothesis HA : blocks_ok F sz Cluster m amps.
    Local Notation eB := (base F Cluster m factor_of amps).
    Lemma stored_good n nb : (1 <= n <= m)%nat -> (nb <= n)%nat -> good sz eB id_split stored_unrestricted amps (block_name Cluster n nb, kinds n nb).
    Proof.
      intros Hn Hb. assert (Hn4 : (1 <= n <= 4)%nat) by lia. apply good_iff; [assumption..|]. destruct (HA Hn Hb) as (x & Ex & Wx & Sx & _). exists x. split; [exact Ex|]. split; [split; assumption|].
      intros idx Hi. unfold stored_unrestricted. rewrite lookup_block by assumption. cbn [fst snd]. unfold divided_by_spins. rewrite (value_times _ H0), own_is, factor_is by assumption.
      destruct (@base_value F sz Cluster m factor_of amps n nb idx 1 1 (proj2 Hm) Hn Hb Hi HA) as (x' & Ex' & V). assert (x' = x) by congruence. subst x'.
      rewrite V, coef_one, factor_comb by assumption. destruct (factor_pos Hn4 Hb) as (k & ->).
      transitivity ((coef F 1 (Pos.of_nat (S k)) * rnat (S k)) * aget 0 x idx); [rewrite (coef_inverse H0); ring|ring].
    Qed.
    Lemma to_coefficients : exists camps, u_amplitudes_to_coefficients F method path sz amps m = Ok camps /\
      forall n nb, (1 <= n <= m)%nat -> (nb <= n)%nat -> good sz eB id_split (expanded_unrestricted Coefficient) camps (block_name Coefficient n nb, kinds n nb).
    Proof.
      destruct (@u_from F method path sz eB id_split H0 (splits_id sz) HP _ _ (@base_symmetric F sz Cluster m factor_of amps (proj2 Hm) HA) stored_unrestricted (expanded_unrestricted Coefficient)
                 (fun n => @to_c_check _ _ _ _ n unrestricted_exponential_check) amps m Hm) as (camps & E & G).
      - intros n xc Hn Hx. apply in_blocks in Hx as (nb & Hb & ->). apply stored_good; assumption.
      - exists camps. split; [exact E|]. intros n nb Hn Hb. apply (G n); [exact Hn|apply blocks_in, Hb].
    Qed.
    (** From any coefficients with these values. *)
    Lemma back_to_amplitudes camps : (forall n nb, (1 <= n <= m)%nat -> (nb <= n)%nat -> good sz eB id_split (expanded_unrestricted Coefficient) camps (block_name Coefficient n nb, kinds n nb)) ->
      exists amps', u_coefficients_to_amplitudes F method path sz camps m = Ok amps' /\
        forall n nb, (1 <= n <= m)%nat -> (nb <= n)%nat -> block amps' (t_name n) (comb n nb) = block amps (t_name n) (comb n nb).
    Proof.
      intros HC. destruct (@u_loop F method path sz eB id_split H0 (splits_id sz) HP _ _ (@base_symmetric F sz Cluster m factor_of amps (proj2 Hm) HA)
                             (expanded_unrestricted Coefficient ++ own_unrestricted Cluster) (own_unrestricted Cluster)
                             (fun n => @to_t_check _ _ _ _ n unrestricted_amplitudes_back_check)) with (camps := camps) (m := m) as (d & E & G).
      - intros n xc pat Hn Hx Hp. apply in_blocks in Hx as (nb & Hb & ->). cbn [fst snd] in *. rewrite patterns_id in Hp. destruct Hp as [<-|[]]. apply other_lookup; [discriminate|assumption..].
      - lia.
      - intros n xc Hn Hx. apply in_blocks in Hx as (nb & Hb & ->). eapply good_lookup; [lia|exact Hb| |apply HC; assumption]. apply own_lookup; lia.
      - assert (K : forall n nb, (1 <= n <= m)%nat -> (nb <= n)%nat -> exists x a, block amps (t_name n) (comb n nb) = Some x /\ wf x /\ shp x = map sz (kinds n nb) /\
                      block d (t_name n) (comb n nb) = Some a /\ of_kinds F sz (kinds n nb) a /\ forall idx, inb (map sz (kinds n nb)) idx -> aget 0 a idx = aget 0 x idx * rnat (spins_factor n (comb n nb))).
        { intros n nb Hn Hb. assert (Hn4 : (1 <= n <= 4)%nat) by lia. pose proof (proj1 (@good_iff F sz eB _ _ Cluster n nb Hn4 Hb) (G n _ Hn (blocks_in _ Hb))) as (a & Ea & Ka & Ga).
          destruct (HA Hn Hb) as (x & Ex & Wx & Sx & _). exists x, a. repeat (split; [assumption|]). intros idx Hi. rewrite (Ga idx Hi). unfold own_unrestricted. rewrite lookup_block by assumption. cbn [fst snd].
          rewrite own_is by assumption. destruct (@base_value F sz Cluster m factor_of amps n nb idx 1 1 (proj2 Hm) Hn Hb Hi HA) as (x' & Ex' & V).
          cbn [prefix] in Ex, Ex'. assert (x' = x) by congruence. subst x'. rewrite V, coef_one, factor_comb by assumption. ring. }
        destruct (@scale_all_ok m d (proj2 Hm)) as (amps' & E' & G').
        { intros n nb Hn Hb. destruct (K n nb Hn Hb) as (x & a & _ & _ & _ & Ea & _). rewrite Ea. discriminate. }
        exists amps'. split.
        + unfold u_coefficients_to_amplitudes. rewrite (orders_seq Hm). rewrite E. cbn [bind]. exact E'.
        + intros n nb Hn Hb. destruct (K n nb Hn Hb) as (x & a & Ex & Wx & Sx & Ea & [Wa Sa] & V). rewrite (G' n nb a Hn Hb Ea), Ex. f_equal.
          assert (Hn4 : (1 <= n <= 4)%nat) by lia. apply arr_ext with (d := 0); [apply divide_wf, Wa|exact Wx|cbn [shp divide map_arr]; congruence|].
          intros idx Hi. cbn [shp divide map_arr] in Hi. rewrite Sa in Hi. destruct (factor_pos Hn4 Hb) as (k & Ek). rewrite Ek in *. rewrite divide_at, (V idx Hi).
          transitivity ((coef F 1 (Pos.of_nat (S k)) * rnat (S k)) * aget 0 x idx); [ring|rewrite (coef_inverse H0); ring].
    Qed.
    (** The coefficients are antisymmetric. *)
    Lemma coefficients_antisymmetric camps n nb x : (1 <= n <= m)%nat -> (nb <= n)%nat -> block camps (prefix Coefficient n) (comb n nb) = Some x ->
      good sz eB id_split (expanded_unrestricted Coefficient) camps (block_name Coefficient n nb, kinds n nb) -> spin_antisymmetric (excitation_key n) (comb n nb) x.
    Proof.
      intros Hn Hb Ex G. assert (Hn4 : (1 <= n <= 4)%nat) by lia. pose proof (proj1 (@good_iff F sz eB _ _ _ n nb Hn4 Hb) G) as (x' & Ex' & Kx & Gx). assert (x' = x) by congruence. subst x'. clear Ex'.
      destruct (swap_of _ _ _ _ _ swaps_ok Hn4 Hb) as [KL HSw].
      exact (@by_swaps _ _ _ eB _ _ n nb x Hn4 Hb (@base_symmetric F sz Cluster m factor_of amps (proj2 Hm) HA) Kx Gx KL HSw).
    Qed.
  End TCT.

  Section CTC.
    Variable m : nat.
    Hypothesis Hm : (1 <= m <= 4)%nat.
    Variable camps : amps_t.
    Hypothesis HA : blocks_ok F sz Coefficient m camps.
    Local Notation eB := (base F Coefficient m (fun _ => 1%nat) camps).
    Lemma rnat_1 : rnat 1 = (1 : F). Proof. cbn [rnat]. ring. Qed.
    Lemma own_good n nb : (1 <= n <= m)%nat -> (nb <= n)%nat -> good sz eB id_split (own_unrestricted Coefficient) camps (block_name Coefficient n nb, kinds n nb).
    Proof.
      intros Hn Hb. assert (Hn4 : (1 <= n <= 4)%nat) by lia. apply good_iff; [assumption..|]. destruct (HA Hn Hb) as (x & Ex & Wx & Sx & _). exists x. split; [exact Ex|]. split; [split; assumption|].
      intros idx Hi. unfold own_unrestricted. rewrite lookup_block by assumption. cbn [fst snd]. rewrite own_is by assumption.
      destruct (@base_value F sz Coefficient m (fun _ => 1%nat) camps n nb idx 1 1 (proj2 Hm) Hn Hb Hi HA) as (x' & Ex' & V). assert (x' = x) by congruence. subst x'.
      rewrite V, coef_one, rnat_1. ring.
    Qed.
    Lemma coefficients_and_back : exists amps camps', u_coefficients_to_amplitudes F method path sz camps m = Ok amps /\ u_amplitudes_to_coefficients F method path sz amps m = Ok camps' /\
      forall n nb, (1 <= n <= m)%nat -> (nb <= n)%nat -> block camps' (order_name n) (comb n nb) = block camps (order_name n) (comb n nb).
    Proof.
      pose proof (@base_symmetric F sz Coefficient m (fun _ => 1%nat) camps (proj2 Hm) HA) as HS.
      destruct (@u_loop F method path sz eB id_split H0 (splits_id sz) HP _ _ HS
                             (own_unrestricted Coefficient ++ expanded_unrestricted Cluster) (expanded_unrestricted Cluster)
                             (fun n => @to_t_check _ _ _ _ n unrestricted_logarithm_check)) with (camps := camps) (m := m) as (d & E & G).
      - intros n xc pat Hn Hx Hp. apply in_blocks in Hx as (nb & Hb & ->). cbn [fst snd] in *. rewrite patterns_id in Hp. destruct Hp as [<-|[]]. apply other_lookup; [discriminate|assumption..].
      - lia.
      - intros n xc Hn Hx. apply in_blocks in Hx as (nb & Hb & ->). eapply good_lookup; [lia|exact Hb| |apply own_good; assumption]. apply own_lookup; lia.
      - destruct (@scale_all_ok m d (proj2 Hm)) as (amps & E' & G').
        { intros n nb Hn Hb. assert (Hn4 : (1 <= n <= 4)%nat) by lia. pose proof (proj1 (@good_iff F sz eB _ _ Cluster n nb Hn4 Hb) (G n _ Hn (blocks_in _ Hb))) as (a & Ea & _). cbn [prefix] in Ea. rewrite Ea. discriminate. }
        destruct (@u_from F method path sz eB id_split H0 (splits_id sz) HP _ _ HS stored_expanded_unrestricted (own_unrestricted Coefficient)
                 (fun n => @to_c_check _ _ _ _ n unrestricted_coefficients_back_check) amps m Hm) as (camps' & E2 & G2).
        { intros n xc Hn Hx. apply in_blocks in Hx as (nb & Hb & ->). assert (Hn4 : (1 <= n <= 4)%nat) by lia.
          pose proof (proj1 (@good_iff F sz eB _ _ Cluster n nb Hn4 Hb) (G n _ Hn (blocks_in _ Hb))) as (a & Ea & [Wa Sa] & Va). cbn [prefix] in Ea.
          apply good_iff; [assumption..|]. exists (divide F a (spins_factor n (comb n nb))). split; [apply G'; assumption|]. split; [split; [apply divide_wf, Wa|exact Sa]|].
          intros idx Hi. unfold stored_expanded_unrestricted. unfold expanded_unrestricted in Va. rewrite lookup_block in Va |- * by assumption. cbn [fst snd] in *. unfold divided_by_spins. rewrite (value_times _ H0), factor_is by assumption.
          destruct (factor_pos Hn4 Hb) as (k & ->). rewrite divide_at, (Va idx Hi). reflexivity. }
        exists amps, camps'. split; [|split].
        + unfold u_coefficients_to_amplitudes. rewrite (orders_seq Hm). rewrite E. cbn [bind]. exact E'.
        + exact E2.
        + intros n nb Hn Hb. assert (Hn4 : (1 <= n <= 4)%nat) by lia.
          pose proof (proj1 (@good_iff F sz eB _ _ Coefficient n nb Hn4 Hb) (G2 n _ Hn (blocks_in _ Hb))) as (a & Ea & [Wa Sa] & Va).
          pose proof (proj1 (@good_iff F sz eB _ _ Coefficient n nb Hn4 Hb) (own_good Hn Hb)) as (b & Eb & [Wb Sb] & Vb). cbn [prefix] in *. rewrite Ea, Eb. f_equal.
          apply arr_ext with (d := 0); [assumption|assumption|congruence|]. intros idx Hi. rewrite Sa in Hi. rewrite (Va idx Hi), (Vb idx Hi). reflexivity.
    Qed.
  End CTC.

  Variables sa sb : space.
  Hypothesis HZ : spin_sizes sa sb sz.
  Lemma cluster_blocks m amps : (m <= 4)%nat -> cluster_amplitudes sa sb m amps -> blocks_ok F sz Cluster m amps.
  Proof.
    intros Hm H n nb Hn Hb. destruct (H n (comb n nb)) as (x & Ex & Wx & Sx & Ax); [lia|lia|apply comb_in; lia|]. exists x. split; [exact Ex|]. split; [exact Wx|].
    split; [|exact Ax]. apply (block_sized _ HZ); [lia|exact Hb|exact Sx].
  Qed.
  Lemma coefficient_blocks m amps : (m <= 4)%nat -> coefficient_amplitudes sa sb m amps -> blocks_ok F sz Coefficient m amps.
  Proof.
    intros Hm H n nb Hn Hb. destruct (H n (comb n nb)) as (x & Ex & Wx & Sx & Ax); [lia|lia|apply comb_in; lia|]. exists x. split; [exact Ex|]. split; [exact Wx|].
    split; [|exact Ax]. apply (block_sized _ HZ); [lia|exact Hb|exact Sx].
  Qed.
  Theorem u_amplitudes_back m amps : (1 <= m <= 4)%nat -> cluster_amplitudes sa sb m amps ->
    exists camps amps', u_amplitudes_to_coefficients F method path sz amps m = Ok camps /\ coefficient_amplitudes sa sb m camps /\
      u_coefficients_to_amplitudes F method path sz camps m = Ok amps' /\
      forall n c, (1 <= n <= m)%nat -> In c (generate_spin_combinations n false true) -> cluster amps' n c = cluster amps n c.
  Proof.
    intros Hm HA. apply (cluster_blocks (proj2 Hm)) in HA. destruct (to_coefficients Hm HA) as (camps & E & G). destruct (back_to_amplitudes Hm HA G) as (amps' & E' & G').
    exists camps, amps'. split; [exact E|]. split; [|split; [exact E'|]].
    - intros n c H1 H2 Hc. apply in_comb in Hc as (nb & Hb & ->); [|lia]. assert (Hn4 : (1 <= n <= 4)%nat) by lia.
      pose proof (proj1 (@good_iff F sz _ _ _ Coefficient n nb Hn4 Hb) (G n nb (conj H1 H2) Hb)) as (a & Ea & [Wa Sa] & Va). exists a. split; [exact Ea|]. split; [exact Wa|].
      split; [apply (block_sized _ HZ); assumption|]. apply (@coefficients_antisymmetric m Hm amps HA camps n nb a (conj H1 H2) Hb Ea). apply G; [split; assumption|exact Hb].
    - intros n c Hn Hc. apply in_comb in Hc as (nb & Hb & ->); [|lia]. exact (G' n nb Hn Hb).
  Qed.
  Theorem u_coefficients_back m camps : (1 <= m <= 4)%nat -> coefficient_amplitudes sa sb m camps ->
    exists amps camps', u_coefficients_to_amplitudes F method path sz camps m = Ok amps /\ u_amplitudes_to_coefficients F method path sz amps m = Ok camps' /\
      forall n c, (1 <= n <= m)%nat -> In c (generate_spin_combinations n false true) -> coefficient camps' n c = coefficient camps n c.
  Proof.
    intros Hm HA. apply (coefficient_blocks (proj2 Hm)) in HA. destruct (coefficients_and_back Hm HA) as (amps & camps' & E & E' & G). exists amps, camps'. split; [exact E|]. split; [exact E'|].
    intros n c Hn Hc. apply in_comb in Hc as (nb & Hb & ->); [|lia]. exact (G n nb Hn Hb).
  Qed.

  (** Through a CI vector. *)
  Variable tn : nat -> nat -> nat -> list nat * list Z.
  Hypothesis HT : addresses_ok tn.
  Hypothesis Ha : accepted sa.
  Hypothesis Hb : accepted sb.
  Variable norm : arr F -> F.
  Lemma no_torsion : no_two_torsion F.
  Proof.
    intros a H. assert (N : (1 + 1 : F) <> 0). { intros E. apply (H0 1%nat). transitivity (1 + 1 : F); [cbn [rnat]; ring|exact E]. }
    assert (E : (1 + 1) * a = 0) by (transitivity (a + a); [ring|rewrite H at 2; ring]). transitivity (fdiv ((1 + 1) * a) (1 + 1)); [field; exact N|rewrite E; field; exact N].
  Qed.
  Lemma u_to_vector m amps (normalise : bool) : (1 <= m <= 4)%nat -> cluster_amplitudes sa sb m amps ->
    naocc sa = naocc sb /\ navir sa = navir sb \/ (m <= 2)%nat ->
    (normalise = true -> forall x, aget 0 x [0; 0]%nat = 1 -> norm x <> 0) ->
    exists camps ci out, u_amplitudes_to_coefficients F method path sz amps m = Ok camps /\ u_amplitudes_to_ci F method path sz tn norm amps m normalise = Ok ci /\
      u_coefficients F tn sa sb ci m = Ok out /\ forall n c, (1 <= n <= m)%nat -> In c (generate_spin_combinations n false true) -> coefficient out n c = coefficient camps n c.
  Proof.
    intros Hm HA HE HN. assert (HA' := HA). apply (cluster_blocks (proj2 Hm)) in HA'. destruct (to_coefficients Hm HA') as (camps & E & G).
    assert (HC : coefficient_amplitudes sa sb m camps).
    { destruct (u_amplitudes_back Hm HA) as (camps' & _ & Ec & K & _). assert (camps' = camps) by congruence. subst. exact K. }
    assert (HS : singles_sized sa sb amps).
    { destruct (HA 1%nat (comb 1 0)) as (xa & E1 & _ & S1 & _); [lia|lia|apply comb_in; lia|]. destruct (HA 1%nat (comb 1 1)) as (xb & E2 & _ & S2 & _); [lia|lia|apply comb_in; lia|].
      apply (block_sized _ HZ) in S1; [|lia..]. apply (block_sized _ HZ) in S2; [|lia..]. destruct HZ as (Z4 & Z5 & Z6 & Z7). unfold cluster in E1, E2. change (str "t" ++ dec 1) with (str "t1") in *.
      destruct (dget pystr_eq_dec (str "t1") amps) as [[?|d]|] eqn:Ed; try discriminate. exists d, xa, xb. split; [exact Ed|]. split; [exact E1|]. split; [rewrite S1; cbn; congruence|]. split; [exact E2|rewrite S2; cbn; congruence]. }
    pose proof (fun H => @roundtrip F tn HT no_torsion sa sb Ha Hb m Hm camps HC H (fun amps => u_amplitudes_to_coefficients F method path sz amps m) norm amps HS E normalise HN) as HX.
    destruct HX as (ci & Eci & _ & out & Eo & Go).
    { intros n c Hn. destruct HE as [[E1 E2]|HE]; [apply shapes_equal; [assumption|assumption|lia]|apply shapes_small; lia]. }
    exists camps, ci, out. split; [exact E|]. split; [exact Eci|]. split; [exact Eo|exact Go].
  Qed.
  Theorem u_vector_back m amps (normalise : bool) : (1 <= m <= 4)%nat -> cluster_amplitudes sa sb m amps ->
    naocc sa = naocc sb /\ navir sa = navir sb \/ (m <= 2)%nat ->
    (normalise = true -> forall x, aget 0 x [0; 0]%nat = 1 -> norm x <> 0) ->
    exists ci amps', u_amplitudes_to_ci F method path sz tn norm amps m normalise = Ok ci /\ u_ci_to_amplitudes F method path sz tn sa sb ci m = Ok amps' /\
      forall n c, (1 <= n <= m)%nat -> In c (generate_spin_combinations n false true) -> cluster amps' n c = cluster amps n c.
  Proof.
    intros Hm HA HE HN. destruct (@u_to_vector m amps normalise Hm HA HE HN) as (camps & ci & out & E & Eci & Eo & Go).
    apply (cluster_blocks (proj2 Hm)) in HA. destruct (to_coefficients Hm HA) as (camps' & E' & G). assert (camps' = camps) by congruence. subst camps'. clear E'.
    destruct (@back_to_amplitudes m Hm amps HA out) as (amps' & E' & G').
    { intros n nb Hn Hnb. eapply good_args; [|reflexivity|apply (G n nb Hn Hnb)]. cbn [fst]. rewrite !arguments_block by lia. exact (Go n (comb n nb) Hn (@comb_in n nb ltac:(lia) Hnb)). }
    exists ci, amps'. split; [exact Eci|]. split.
    - unfold u_ci_to_amplitudes. rewrite Eo. cbn [bind]. exact E'.
    - intros n c Hn Hc. apply in_comb in Hc as (nb & Hnb & ->); [|lia]. exact (G' n nb Hn Hnb).
  Qed.
End Main.
