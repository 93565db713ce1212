(** Lemmas about the starting amplitudes. *)
From Coq Require Import String Permutation Field.
From Verif Require Import Base ListAux Alg ArrModel ArrProofs PermModel TensorModel TensorSpec EinsumModel SpaceModel AnsatzModel AnsatzSpec AnsatzProofs AnsatzRanks DampProofs VecModel VecSpec VecThms
  CcModel CcSpec CcProofs CcThms CcRdm CcShift.
Set Implicit Arguments.
Local Open Scope string_scope.
Local Open Scope list_scope.
Local Open Scope nat_scope.

Section Init.
  Variable F : fld.
  Local Open Scope rng_scope.
  Local Open Scope py_scope.
  Add Field Ffield8 : (fth F).

  Lemma set_all_ok {E} (name : E -> pystr) (value : E -> result (tval F)) l : forall d, NoDup (map name l) ->
    (forall e, In e l -> exists v, value e = Ok v) -> NoDup (map fst d) ->
    exists out, set_all name value l d = Ok out /\ NoDup (map fst out) /\
      (forall nm, dget pystr_eq_dec nm out <> None -> dget pystr_eq_dec nm d <> None \/ In nm (map name l)) /\
      (forall nm, ~ In nm (map name l) -> dget pystr_eq_dec nm out = dget pystr_eq_dec nm d) /\
      (forall e v, In e l -> value e = Ok v -> dget pystr_eq_dec (name e) out = Some v).
  Proof.
    induction l as [|e l IH]; intros d ND HV Nd.
    - exists d. split; [reflexivity|]. split; [exact Nd|]. split; [tauto|]. split; [reflexivity|]. intros e v [].
    - inversion ND as [|? ? N1 N2]; subst. destruct (HV e (or_introl eq_refl)) as (v & Ev).
      destruct (IH (dset pystr_eq_dec (name e) v d) N2 (fun e' H => HV e' (or_intror H))) as (out & Eo & No & Ko & Oo & Go).
      { apply dset_keys, Nd. }
      exists out. unfold set_all in *. cbn [foldM]. rewrite Ev. cbn [bind]. split; [exact Eo|]. split; [exact No|]. split; [|split].
      + intros nm H. apply Ko in H. rewrite dget_dset in H. destruct H as [H|H]; [|right; right; exact H].
        destruct (pystr_eq_dec nm (name e)) as [->|]; [right; left; reflexivity|left; exact H].
      + intros nm H. rewrite Oo by (intros X; apply H; right; exact X). rewrite dget_dset. destruct (pystr_eq_dec nm (name e)) as [->|]; [|reflexivity]. exfalso. apply H. left. reflexivity.
      + intros e' v' [<-|H] E'.
        * rewrite Oo by exact N1. rewrite dget_dset. destruct (pystr_eq_dec (name e) (name e)); congruence.
        * apply Go; assumption.
  Qed.

  Lemma zeros_shape s : wf (@zeros F s) /\ shp (@zeros F s) = s.
  Proof. split; [apply full_wf|reflexivity]. Qed.
  Lemma neg_quotient (g w : F) : w <> 0 -> fdiv (- g) w = fdiv g (- (w + 0)).
  Proof.
    intros H. assert (N : - w <> 0) by (intros E; apply H; transitivity (- - w); [ring|]; rewrite E; ring).
    replace (- (w + 0)) with (- w) by ring. assert (X : fdiv g (- w) * (- w) = g) by (rewrite (Field_theory.Fdiv_def (fth F)); transitivity (g * (finv (- w) * - w)); [ring|]; rewrite (Finv_l (fth F) _ N); ring).
    rewrite <- X at 1. rewrite (Field_theory.Fdiv_def (fth F)). transitivity (fdiv g (- w) * (finv w * w)); [ring|]. rewrite (Finv_l (fth F) _ H). ring.
  Qed.
  Lemma map_rep {A B} (f : A -> B) x n : map f (repeat x n) = repeat (f x) n.
  Proof. induction n; cbn; congruence. Qed.
  Lemma shape_known sp nbos l sz name key : sizes_known sp nbos l sz -> In (name, key) l -> (forall k, In k key -> orb k) -> key_shape sp key = Ok (map sz key).
  Proof.
    intros H Hin HO. assert (X : forall k, In k key -> sp_size sp k = Ok (sz k)).
    { intros k Hk. specialize (H name key k Hin Hk). specialize (HO k Hk). destruct (k =? chr_of "b") eqn:E; [|exact H].
      apply Nat.eqb_eq in E. subst k. exfalso. revert HO. unfold orb. vm_compute. intuition discriminate. }
    clear H Hin HO. unfold key_shape. induction key as [|k key IH]; [reflexivity|]. cbn [mapM]. rewrite X by (left; reflexivity). cbn [bind].
    rewrite IH by (intros; apply X; right; assumption). reflexivity.
  Qed.

  Variable c : cc F.
  Variables (sz : nat -> nat) (eps : nat -> nat -> F) (rspin : bool).
  Variables (fs bs : list entry) (cs : list (pystr * pystr * nat * nat)).
  Let l := map fst fs ++ map fst bs ++ map (fun e : pystr * pystr * nat * nat => fst (fst e)) cs.
  Hypothesis Hf : (frank (cc_ansatz c) <= 1)%nat.
  Hypothesis HD : distinct_names (cc_ansatz c) rspin Wt.
  Hypothesis Ef : fermionic_cluster_ranks (cc_ansatz c) rspin Wt = Ok fs.
  Hypothesis Eb : bosonic_cluster_ranks (cc_ansatz c) Wt = Ok bs.
  Hypothesis Ec : coupling_cluster_ranks (cc_ansatz c) Wt = Ok cs.
  Hypothesis H26 : forall name key, In (name, key) l -> (length key <= 26)%nat.
  Hypothesis HE : energies_known (cc_omega c) (cc_fock c) l sz eps.
  Hypothesis HS : sizes_known (cc_space c) (nbos_of (cc_omega c)) l sz.
  Hypothesis HB : bosons_known (cc_omega c) (cc_G c) (cc_g c) sz bs cs.

  Lemma in_f name key n : In (name, key, n) fs -> In (name, key) l.
  Proof. intros H. apply in_or_app. left. apply in_map_iff. exists (name, key, n). tauto. Qed.
  Lemma in_b name key n : In (name, key, n) bs -> In (name, key) l.
  Proof. intros H. apply in_or_app. right. apply in_or_app. left. apply in_map_iff. exists (name, key, n). tauto. Qed.
  Lemma in_c name key nf nb : In (name, key, nf, nb) cs -> In (name, key) l.
  Proof. intros H. apply in_or_app. right. apply in_or_app. right. apply in_map_iff. exists (name, key, nf, nb). tauto. Qed.
  Lemma l_clusters : clusters (cc_ansatz c) rspin Wt l.
  Proof. exists fs, bs, cs. tauto. Qed.
  Lemma denom name key : In (name, key) l -> exists D, energy_sum c key [] = Ok D /\ wf D /\ shp D = map sz key /\
    forall idx, inb (map sz key) idx -> aget 0 D idx = denominator sz eps key idx.
  Proof.
    intros H. destruct (@clusters_facts _ _ _ _ (or_introl eq_refl) l_clusters name key H) as [_ NE].
    apply (@denominator_ok F c sz eps name key NE (H26 _ _ H)). intros k Hk. exact (@HE _ _ _ H Hk).
  Qed.
  Definition good (key : pystr) (x : arr F) (v : list nat -> F) : Prop :=
    wf x /\ shp x = map sz key /\ forall idx, inb (map sz key) idx -> aget 0 x idx = fdiv (v idx) (denominator sz eps key idx).
  Lemma quotient name key (r : result (arr F)) : In (name, key) l -> available r (map sz key) ->
    exists x, (f <- r ;; e <- energy_sum c key [] ;; div_arr f e) = Ok x /\ good key x (at_index r).
  Proof.
    intros Hin (f & -> & Wf & Sf). destruct (@denom _ _ Hin) as (D & ED & WD & SD & GD). cbn [bind]. rewrite ED. cbn [bind].
    destruct (@zip_ok F fdiv f D Wf WD ltac:(congruence)) as (x & Ex & Wx & Sx & Gx). exists x. split; [exact Ex|]. split; [exact Wx|]. split; [congruence|].
    intros idx Hi. rewrite Gx by (rewrite Sf; exact Hi). rewrite GD by exact Hi. reflexivity.
  Qed.
  Lemma zero_good key : good key (zeros (map sz key)) (fun _ => 0).
  Proof. destruct (zeros_shape (map sz key)) as [W S]. split; [exact W|]. split; [exact S|]. intros idx _. unfold zeros. rewrite aget_full. rewrite (Field_theory.Fdiv_def (fth F)). ring. Qed.
  Lemma key_letters name key n : In (name, key, n) fs -> (forall k, In k key -> orb k) /\ length key = (2 * n)%nat.
  Proof.
    intros H. destruct (@fermionic_entries _ _ _ _ Ef) as (_ & _ & F2). specialize (F2 _ H). split.
    - intros k Hk. exact (@entry_orb Wt _ _ (or_introl eq_refl) F2 Hk).
    - exact (proj1 (@entry_len Wt _ (or_introl eq_refl) F2)).
  Qed.
  Definition singles_known : Prop := forall name key, In (name, key, 1%nat) fs -> available (cc_fock c key) (map sz key).

  Lemma r_guess_ok name key n : singles_known ->
    (forall name k0 k1 k2 k3, In (name, [k0; k1; k2; k3], 2%nat) fs -> available (cc_eris c [k0; k2; k1; k3]) (map sz [k0; k2; k1; k3])) ->
    In (name, key, n) fs -> exists x, r_guess c key n = Ok x /\ good key x (r_driver c key n).
  Proof.
    intros H1 H2 Hin. destruct (@key_letters _ _ _ Hin) as [KO KL]. unfold r_guess. destruct n as [|[|[|n]]]; cbn [Nat.eqb].
    - destruct key; [|discriminate]. rewrite (@shape_known _ _ l sz name [] HS (in_f _ _ _ Hin) KO). cbn [bind]. eexists. split; [reflexivity|]. exact (zero_good []).
    - exact (@quotient _ _ _ (in_f _ _ _ Hin) (H1 _ _ Hin)).
    - destruct key as [|k0 [|k1 [|k2 [|k3 [|]]]]]; try discriminate. destruct (H2 _ _ _ _ _ Hin) as (v & Ev & Wv & Sv). rewrite Ev. cbn [bind].
      destruct (@transpose_get F v [0; 2; 1; 3]%nat) as (t & Et & Wt' & St & Gt).
      { rewrite Sv. cbn. apply perm_skip, perm_swap. }
      rewrite Et. cbn [bind]. rewrite Sv in St. cbn in St.
      destruct (@denom _ _ (in_f _ _ _ Hin)) as (D & ED & WD & SD & GD). rewrite ED. cbn [bind].
      destruct (@zip_ok F fdiv t D Wt' WD ltac:(rewrite SD, St; reflexivity)) as (x & Ex & Wx & Sx & Gx). exists x. split; [exact Ex|]. split; [exact Wx|].
      split; [rewrite Sx, St; reflexivity|].
      intros idx Hi. rewrite Gx by (rewrite St; exact Hi). rewrite GD by exact Hi. rewrite Gt by (rewrite St; exact Hi).
      pose proof (inb_length Hi) as L. destruct idx as [|i [|j [|a [|b [|]]]]]; try discriminate. cbn [r_driver]. rewrite Ev. reflexivity.
    - rewrite (@shape_known _ _ l sz name key HS (in_f _ _ _ Hin) KO). cbn [bind]. eexists. split; [reflexivity|]. exact (zero_good key).
  Qed.
  Lemma g_guess_ok name key n : singles_known -> (forall name key, In (name, key, 2%nat) fs -> available (cc_eris c key) (map sz key)) ->
    In (name, key, n) fs -> exists x, g_guess c key n = Ok x /\ good key x (g_driver c key n).
  Proof.
    intros H1 H2 Hin. destruct (@key_letters _ _ _ Hin) as [KO KL]. unfold g_guess. destruct n as [|[|[|n]]]; cbn [Nat.eqb].
    - rewrite (@shape_known _ _ l sz name key HS (in_f _ _ _ Hin) KO). cbn [bind]. eexists. split; [reflexivity|]. exact (zero_good key).
    - exact (@quotient _ _ _ (in_f _ _ _ Hin) (H1 _ _ Hin)).
    - exact (@quotient _ _ _ (in_f _ _ _ Hin) (H2 _ _ Hin)).
    - rewrite (@shape_known _ _ l sz name key HS (in_f _ _ _ Hin) KO). cbn [bind]. eexists. split; [reflexivity|]. exact (zero_good key).
  Qed.

  Lemma bos_energy w i : bs <> [] -> cc_omega c = Some w -> eps (chr_of "b") i = aget 0 w [i].
  Proof.
    intros HN Ew. assert (X : exists name key, In (name, key) l /\ In (chr_of "b") key).
    { destruct bs as [|[[name key] n] bs'] eqn:E; [congruence|]. destruct (@boson_wf _ _ _ Eb) as (_ & _ & B). destruct (B name key n (or_introl eq_refl)) as (_ & -> & Hn & _).
      exists name, (repeat (chr_of "b") n). split; [apply in_or_app; right; left; reflexivity|]. destruct n; [lia|]. left. reflexivity. }
    destruct X as (name & key & Hin & Hk). destruct (@HE _ _ _ Hin Hk) as [_ CE]. unfold class_energies in CE. rewrite Nat.eqb_refl in CE.
    destruct CE as (w' & Ew' & _ & _ & G). rewrite Ew in Ew'. injection Ew' as <-. apply G.
  Qed.
  Lemma boson_denominator n idx : length idx = n -> denominator sz eps (repeat (chr_of "b") n) idx = - rsum (map (eps (chr_of "b")) idx).
  Proof.
    unfold denominator, signed_energies. revert n. induction idx as [|i idx IH]; intros n L; destruct n as [|n]; try discriminate; [cbn; unfold rsum; cbn; ring|].
    cbn [repeat map combine]. rewrite !rsum_cons, IH by (cbn in L; lia). change (memb (chr_of "b") (str "oOi")) with false. cbv beta iota. ring.
  Qed.
  Lemma boson_guess_ok name key n : In (name, key, n) bs -> exists x, boson_guess (cc_omega c) (cc_G c) n = Ok x /\ good key x (b_driver (cc_G c) n).
  Proof.
    intros Hin. assert (NE : bs <> []) by (intros E; rewrite E in Hin; destruct Hin). destruct HB as (HB1 & HB2 & _).
    destruct (HB1 NE) as (G & EG & WG & SG). destruct (HB2 (or_introl NE)) as (w & Ew & Ww & Sw & NZ).
    destruct (@boson_wf _ _ _ Eb) as (_ & _ & B). destruct (B name key n Hin) as (_ & -> & Hn & _).
    unfold boson_guess. rewrite Ew, EG. unfold b_driver. destruct n as [|[|n]]; [lia| |].
    - cbn [Nat.eqb repeat].
      destruct (@zip_ok F fdiv (map_arr ropp G) w) as (x & Ex & Wx & Sx & Gx).
      + unfold wf, map_arr. cbn [shp dat]. rewrite map_length. exact WG.
      + exact Ww.
      + cbn [map_arr shp]. congruence.
      + exists x. split; [exact Ex|]. split; [exact Wx|]. cbn [map_arr shp] in Sx, Gx. split; [rewrite Sx, SG; reflexivity|].
        intros idx Hi. cbn [map] in Hi. rewrite Gx by (rewrite SG; exact Hi). apply inb1 in Hi. destruct Hi as (i & -> & Hi).
        change [chr_of "b"] with (repeat (chr_of "b") 1). rewrite boson_denominator by reflexivity. cbn [map]. rewrite rsum_cons. change (rsum (@nil F)) with (0 : F).
        rewrite (@bos_energy w i NE Ew).
        replace (aget 0 (map_arr ropp G) [i]) with (- aget 0 G [i]).
        2:{ unfold aget, map_arr. cbn [shp dat]. rewrite (nth_indep (map _ (dat G)) 0 (- 0)); [rewrite (map_nth ropp); reflexivity|]. rewrite map_length, WG. apply ravel_lt. rewrite SG. apply inb1. exists i. tauto. }
        apply neg_quotient, NZ, Hi.
    - cbn [Nat.eqb]. eexists. split; [reflexivity|].
      replace (repeat (nbos_of (Some w)) (S (S n))) with (map sz (repeat (chr_of "b") (S (S n)))); [apply zero_good|].
      unfold nbos_of. rewrite Sw. cbn [nth]. rewrite map_rep. reflexivity.
  Qed.
  Lemma coupling_guess_ok name key nf nb first : In (name, key, nf, nb) cs -> first = Ok (nb =? 1)%nat ->
    exists x, coupling_guess c key nf nb first = Ok x /\ good key x (eb_driver (cc_g c) key nb).
  Proof.
    intros Hin ->. assert (NE : cs <> []) by (intros E; rewrite E in Hin; destruct Hin). destruct HB as (_ & HB2 & HB3).
    destruct (HB2 (or_intror NE)) as (w & Ew & Ww & Sw & NZ). destruct (HB3 NE) as (g & Eg & AG).
    destruct (@coupling_skip _ _ _ _ _ _ _ (or_introl eq_refl) Ec Hin) as (K1 & _ & K2). assert (nf = 1%nat) by lia. subst nf.
    unfold coupling_guess. rewrite Ew, Eg. cbn [Nat.eqb negb bind]. unfold eb_driver. destruct (Nat.eqb_spec nb 1) as [->|N1].
    - exact (@quotient _ _ _ (in_c _ _ _ _ Hin) (AG _ _ _ Hin)).
    - assert (KS : key_shape (cc_space c) (skipn nb key) = Ok (map sz (skipn nb key))).
      { clear - HS Hin K1. assert (HI : forall k, In k (skipn nb key) -> sp_size (cc_space c) k = Ok (sz k)).
        { intros k Hk. assert (In k key) by (rewrite <- (firstn_skipn nb key); apply in_or_app; right; exact Hk). specialize (@HS name key k (in_c _ _ _ _ Hin) H).
          destruct (k =? chr_of "b") eqn:E; [|exact HS]. exfalso. apply Nat.eqb_eq in E. subst k. destruct K1 as [-> | ->] in Hk; vm_compute in Hk; intuition discriminate. }
        unfold key_shape. revert HI. clear K1. induction (skipn nb key) as [|k ks IH]; intros HI; [reflexivity|]. cbn [mapM]. rewrite HI by (left; reflexivity). cbn [bind]. rewrite IH by (intros; apply HI; right; assumption). reflexivity. }
      rewrite KS. cbn [bind]. eexists. split; [reflexivity|].
      assert (FK : firstn nb key = repeat (chr_of "b") nb).
      { clear - Ec Hin. rewrite (@coupling_eq (cc_ansatz c) Wt (or_introl eq_refl)) in Ec. apply Ok_inj in Ec. rewrite <- Ec in Hin. apply in_map_iff in Hin. destruct Hin as ([i j] & E & _).
        unfold couple in E. cbn [fst snd] in E. apply pair_equal_spec in E. destruct E as [E <-]. apply pair_equal_spec in E. destruct E as [E _]. apply pair_equal_spec in E. destruct E as [_ <-].
        rewrite firstn_app, repeat_length, Nat.sub_diag. cbn [firstn]. rewrite app_nil_r. rewrite <- (repeat_length (chr_of "b") j) at 1. apply firstn_all. }
      replace (repeat (nbos_of (Some w)) nb ++ map sz (skipn nb key)) with (map sz key).
      + destruct nb as [|[|nb]]; [exact (zero_good key)|lia|exact (zero_good key)].
      + rewrite <- (firstn_skipn nb key) at 1. rewrite map_app, FK, map_rep. unfold nbos_of. rewrite Sw. reflexivity.
  Qed.

  Variables (guess : pystr -> nat -> result (arr F)) (driver : pystr -> nat -> list nat -> F) (first : nat -> result bool).
  Hypothesis HG : forall name key n, In (name, key, n) fs -> exists x, guess key n = Ok x /\ good key x (driver key n).
  Hypothesis HF : forall name key nf nb, In (name, key, nf, nb) cs -> first nb = Ok (nb =? 1)%nat.
  Lemma arr_of_ok {E} (f : E -> result (arr F)) e x : f e = Ok x -> arr_of f e = Ok (VArr x).
  Proof. unfold arr_of. intros ->. reflexivity. Qed.
  Definition init_all : result (dict pystr (tval F)) :=
    d1 <- set_all fname (arr_of (fun '(_, key, n) => guess key n)) fs [] ;;
    d2 <- set_all fname (arr_of (fun '(_, _, n) => boson_guess (cc_omega c) (cc_G c) n)) bs d1 ;;
    set_all cname (arr_of (fun '(_, key, nf, nb) => coupling_guess c key nf nb (first nb))) cs d2.
  Lemma init_ok : exists out, init_all = Ok out /\ holds_blocks [] l sz out /\
    (forall name key n idx, In (name, key, n) fs -> inb (map sz key) idx -> block_at out name idx = fdiv (driver key n idx) (denominator sz eps key idx)) /\
    (forall name key n idx, In (name, key, n) bs -> inb (map sz key) idx -> block_at out name idx = fdiv (b_driver (cc_G c) n idx) (denominator sz eps key idx)) /\
    (forall name key nf nb idx, In (name, key, nf, nb) cs -> inb (map sz key) idx -> block_at out name idx = fdiv (eb_driver (cc_g c) key nb idx) (denominator sz eps key idx)).
  Proof.
    pose proof (@names_nodup _ _ _ _ _ _ (or_introl eq_refl) HD Ef Eb Ec) as ND. unfold all_names in ND. apply NoDup_app_inv in ND. destruct ND as (N1 & N23 & N4).
    apply NoDup_app_inv in N23. destruct N23 as (N2 & N3 & N5). unfold init_all.
    destruct (@set_all_ok entry fname (arr_of (fun '(_, key, n) => guess key n)) fs [] N1) as (d1 & E1 & D1 & K1 & O1 & G1).
    { intros [[name key] n] Hin. destruct (HG _ _ _ Hin) as (x & Ex & _). exists (VArr x). apply arr_of_ok, Ex. }
    { constructor. }
    rewrite E1. cbn [bind].
    destruct (@set_all_ok entry fname (arr_of (fun '(_, _, n) => boson_guess (cc_omega c) (cc_G c) n)) bs d1 N2) as (d2 & E2 & D2 & K2 & O2 & G2).
    { intros [[name key] n] Hin. destruct (@boson_guess_ok _ _ _ Hin) as (x & Ex & _). exists (VArr x). apply arr_of_ok, Ex. }
    { exact D1. }
    rewrite E2. cbn [bind].
    destruct (@set_all_ok _ cname (arr_of (fun '(_, key, nf, nb) => coupling_guess c key nf nb (first nb))) cs d2 N3) as (out & E3 & D3 & K3 & O3 & G3).
    { intros [[[name key] nf] nb] Hin. destruct (@coupling_guess_ok _ _ _ _ (first nb) Hin (@HF _ _ _ _ Hin)) as (x & Ex & _). exists (VArr x). apply arr_of_ok, Ex. }
    { exact D2. }
    exists out. split; [exact E3|].
    assert (FF : forall name key n, In (name, key, n) fs -> exists x, dget pystr_eq_dec name out = Some (VArr x) /\ good key x (driver key n)).
    { intros name key n Hin. destruct (HG _ _ _ Hin) as (x & Ex & Gx). exists x. split; [|exact Gx].
      assert (HN : In name (map fname fs)) by (apply in_map_iff; exists (name, key, n); split; [reflexivity|exact Hin]).
      rewrite O3 by (intros Hn; apply (N4 name HN), in_or_app; right; exact Hn). rewrite O2 by (intros Hn; apply (N4 name HN), in_or_app; left; exact Hn).
      apply (G1 (name, key, n) _ Hin). apply arr_of_ok, Ex. }
    assert (FB : forall name key n, In (name, key, n) bs -> exists x, dget pystr_eq_dec name out = Some (VArr x) /\ good key x (b_driver (cc_G c) n)).
    { intros name key n Hin. destruct (@boson_guess_ok _ _ _ Hin) as (x & Ex & Gx). exists x. split; [|exact Gx].
      assert (HN : In name (map fname bs)) by (apply in_map_iff; exists (name, key, n); split; [reflexivity|exact Hin]).
      rewrite O3 by (intros Hn; exact (N5 name HN Hn)). apply (G2 (name, key, n) _ Hin). apply arr_of_ok, Ex. }
    assert (FC : forall name key nf nb, In (name, key, nf, nb) cs -> exists x, dget pystr_eq_dec name out = Some (VArr x) /\ good key x (eb_driver (cc_g c) key nb)).
    { intros name key nf nb Hin. destruct (@coupling_guess_ok _ _ _ _ (first nb) Hin (@HF _ _ _ _ Hin)) as (x & Ex & Gx). exists x. split; [|exact Gx].
      apply (G3 (name, key, nf, nb) _ Hin). apply arr_of_ok, Ex. }
    split; [split; [exact D3|split]|split; [|split]].
    - intros nm H. apply K3 in H. destruct H as [H|H].
      + apply K2 in H. destruct H as [H|H].
        * apply K1 in H. destruct H as [H|H]; [exfalso; apply H; reflexivity|]. apply in_map_iff in H. destruct H as ([[name key] n] & <- & Hin). exists name, key. rewrite app_nil_r. split; [exact (in_f _ _ _ Hin)|reflexivity].
        * apply in_map_iff in H. destruct H as ([[name key] n] & <- & Hin). exists name, key. rewrite app_nil_r. split; [exact (in_b _ _ _ Hin)|reflexivity].
      + apply in_map_iff in H. destruct H as ([[[name key] nf] nb] & <- & Hin). exists name, key. rewrite app_nil_r. split; [exact (in_c _ _ _ _ Hin)|reflexivity].
    - intros name key H. rewrite app_nil_r. apply in_app_or in H. destruct H as [H|H]; [|apply in_app_or in H; destruct H as [H|H]]; apply in_map_iff in H.
      + destruct H as ([[nm k] n] & E & Hin). apply pair_equal_spec in E. destruct E as [<- <-]. destruct (FF _ _ _ Hin) as (x & Ex & Wx & Sx & _). exists x. tauto.
      + destruct H as ([[nm k] n] & E & Hin). apply pair_equal_spec in E. destruct E as [<- <-]. destruct (FB _ _ _ Hin) as (x & Ex & Wx & Sx & _). exists x. tauto.
      + destruct H as ([[[nm k] nf] nb] & E & Hin). apply pair_equal_spec in E. destruct E as [<- <-]. destruct (FC _ _ _ _ Hin) as (x & Ex & Wx & Sx & _). exists x. tauto.
    - intros name key n idx Hin Hi. destruct (FF _ _ _ Hin) as (x & Ex & _ & _ & Gx). unfold block_at. rewrite Ex. apply Gx, Hi.
    - intros name key n idx Hin Hi. destruct (FB _ _ _ Hin) as (x & Ex & _ & _ & Gx). unfold block_at. rewrite Ex. apply Gx, Hi.
    - intros name key nf nb idx Hin Hi. destruct (FC _ _ _ _ Hin) as (x & Ex & _ & _ & Gx). unfold block_at. rewrite Ex. apply Gx, Hi.
  Qed.
End Init.

Section Final.
  Variable F : fld.
  Local Open Scope rng_scope.
  Lemma r_init_ok (c : cc F) sz eps fs bs cs : init_ready c true sz eps fs bs cs ->
    (forall name k0 k1 k2 k3, In (name, [k0; k1; k2; k3], 2%nat) fs -> available (cc_eris c [k0; k2; k1; k3]) (map sz [k0; k2; k1; k3])) ->
    exists out, r_init_amps c = Ok out /\ first_order (r_driver c) (cc_G c) (cc_g c) sz eps fs bs cs out.
  Proof.
    intros (H1 & H2 & H3 & H4 & H5 & H6 & H7 & H8 & H9 & H10) H11.
    destruct (@init_ok F c sz eps true fs bs cs H1 H2 H3 H4 H5 H6 H7 H8 H9 (r_guess c) (r_driver c) (fun nb => Ok (nb =? 1)%nat)) as (out & Eo & R).
    - intros name key n Hin. eapply r_guess_ok; eassumption.
    - reflexivity.
    - exists out. split; [|exact R]. unfold r_init_amps. rewrite H3, H4, H5. exact Eo.
  Qed.
  Lemma g_init_ok (c : cc F) sz eps fs bs cs : init_ready c false sz eps fs bs cs ->
    (forall name key, In (name, key, 2%nat) fs -> available (cc_eris c key) (map sz key)) ->
    (forall name key nf nb, In (name, key, nf, nb) cs -> last_n fs bs = Ok (nb =? 1)%nat) ->
    exists out, g_init_amps c = Ok out /\ first_order (g_driver c) (cc_G c) (cc_g c) sz eps fs bs cs out.
  Proof.
    intros (H1 & H2 & H3 & H4 & H5 & H6 & H7 & H8 & H9 & H10) H11 H12.
    destruct (@init_ok F c sz eps false fs bs cs H1 H2 H3 H4 H5 H6 H7 H8 H9 (g_guess c) (g_driver c) (fun _ => last_n fs bs)) as (out & Eo & R).
    - intros name key n Hin. eapply g_guess_ok; eassumption.
    - exact H12.
    - exists out. split; [|exact R]. unfold g_init_amps. rewrite H3, H4, H5. exact Eo.
  Qed.
End Final.
