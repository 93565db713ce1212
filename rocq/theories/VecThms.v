(** Proofs for vector conversion: the layouts of the three classes. *)
From Coq Require Import String.
From Verif Require Import Base ListAux Alg ArrModel ArrProofs PermModel PermSpec PermProps SpinProofs TensorModel TensorSpec TensorProps
  SpaceModel AnsatzModel AnsatzSpec AnsatzProofs AnsatzRanks DampProofs KernelProofs VecModel VecSpec VecProofs.
Set Implicit Arguments.
Local Open Scope nat_scope.
Local Open Scope list_scope.
Local Open Scope py_scope.

Lemma mapM_F2 {A B} (f : A -> result B) : forall l ys, mapM f l = Ok ys <-> Forall2 (fun x y => f x = Ok y) l ys.
Proof.
  induction l as [|x l IH]; intros ys; cbn [mapM].
  - split; [intros [= <-]; constructor|intros H; inversion H; reflexivity].
  - split.
    + destruct (f x) as [y|] eqn:E; [|discriminate]. destruct (mapM f l) as [ys'|] eqn:E'; [|discriminate]. intros [= <-].
      constructor; [exact E|]. apply IH. reflexivity.
    + intros H. inversion H as [|x' y l' ys' Hx Hl]; subst. apply IH in Hl. rewrite Hx, Hl. reflexivity.
Qed.
Lemma F2_in_l {A B} (R : A -> B -> Prop) l l' x : Forall2 R l l' -> In x l -> exists y, In y l' /\ R x y.
Proof. intros H. induction H as [|a b l l' HR H IH]; intros Hin; [destruct Hin|]. destruct Hin as [->|Hin]; [exists b; split; [left; reflexivity|exact HR]|]. destruct (IH Hin) as (y & H1 & H2). exists y. split; [right; exact H1|exact H2]. Qed.
Lemma F2_in_r {A B} (R : A -> B -> Prop) l l' y : Forall2 R l l' -> In y l' -> exists x, In x l /\ R x y.
Proof. intros H. induction H as [|a b l l' HR H IH]; intros Hin; [destruct Hin|]. destruct Hin as [->|Hin]; [exists a; split; [left; reflexivity|exact HR]|]. destruct (IH Hin) as (x & H1 & H2). exists x. split; [right; exact H1|exact H2]. Qed.
Lemma mapM_total {A B} (f : A -> result B) l : (forall x, In x l -> exists y, f x = Ok y) -> exists ys, mapM f l = Ok ys.
Proof.
  induction l as [|x l IH]; intros H; [exists []; reflexivity|]. destruct (H x (or_introl eq_refl)) as (y & E). destruct IH as (ys & E'); [intros x' I; apply H; right; exact I|].
  exists (y :: ys). cbn. rewrite E, E'. reflexivity.
Qed.
Lemma mapM_len {A B} (f : A -> result B) l ys : mapM f l = Ok ys -> length ys = length l.
Proof. intros H. apply mapM_F2 in H. symmetry. exact (Forall2_len H). Qed.

(** Letters of the keys. *)
Definition orb (c : nat) : Prop := In c (str "oOvV").
Lemma num_all p q : forall k : pystr, (forall c, p c = true -> q c = true -> False) -> num p k + num q k = length k ->
  forall c, In c k -> p c = true \/ q c = true.
Proof.
  intros k Hd. assert (B : forall k : pystr, num p k + num q k <= length k).
  { induction k0 as [|c k0 IH]; [cbn; lia|]. unfold num in *. cbn. destruct (p c) eqn:E1, (q c) eqn:E2; cbn; try lia. exfalso; exact (Hd c E1 E2). }
  induction k as [|c k IH]; intros E c' Hc; [destruct Hc|]. destruct Hc as [<-|I].
  - unfold num in *. cbn in E. destruct (p c) eqn:E1, (q c) eqn:E2; auto. specialize (B k). unfold num in B. lia.
  - apply IH; [|exact I]. pose proof (B k). unfold num in *. cbn in E. destruct (p c) eqn:E1, (q c) eqn:E2; cbn in E; try lia. exfalso; exact (Hd c E1 E2).
Qed.
Lemma orb_letter c : occ_letter c = true \/ vir_letter c = true -> orb c.
Proof. unfold occ_letter, vir_letter, orb. rewrite !memb_In. cbn. tauto. Qed.
Lemma entry_orb w e c : w = Wt \/ w = Wl -> entry_ok w e -> In c (snd (fst e)) -> orb c.
Proof.
  destruct e as [[name key] r]. cbn. intros Hw (_ & _ & H) Hin. destruct H as (H1 & H2 & H3); [right; destruct Hw as [->| ->]; split; discriminate|].
  apply orb_letter. apply (@num_all occ_letter vir_letter key); [|lia|exact Hin].
  intros x E1 E2. unfold occ_letter, vir_letter in *. apply memb_In in E1. apply memb_In in E2. cbn in E1, E2. intuition lia.
Qed.
Lemma entry_len w e : w = Wt \/ w = Wl -> entry_ok w e -> length (snd (fst e)) = 2 * snd e /\ 1 <= snd e.
Proof.
  destruct e as [[name key] r]. cbn. intros Hw (H0 & _ & H). destruct H as (H1 & H2 & H3); [right; destruct Hw as [->| ->]; split; discriminate|].
  destruct Hw as [->| ->]; cbn in *; lia.
Qed.
Lemma orb_size sp c : orb c -> exists n, sp_size sp c = Ok n.
Proof. unfold orb. cbn. intros H. repeat (destruct H as [<-|H]; [eexists; reflexivity|]). destruct H. Qed.
Lemma key_shape_spec sp key s : key_shape sp key = Ok s <-> sized_by sp key s.
Proof. unfold key_shape, sized_by. apply mapM_F2. Qed.
Lemma key_shape_total sp key : (forall c, In c key -> orb c) -> exists s, key_shape sp key = Ok s.
Proof. intros H. apply mapM_total. intros c Hc. apply orb_size, H, Hc. Qed.
Lemma sized_fun sp key s s' : sized_by sp key s -> sized_by sp key s' -> s = s'.
Proof. intros H H'. apply key_shape_spec in H, H'. congruence. Qed.

Lemma coupling_skip a w cs name key nf nb : w = Wt \/ w = Wl -> coupling_cluster_ranks a w = Ok cs -> In (name, key, nf, nb) cs ->
  (skipn nb key = repeat (chr_of "o") nf ++ repeat (chr_of "v") nf \/ skipn nb key = repeat (chr_of "v") nf ++ repeat (chr_of "o") nf) /\
  name = csymbol w ++ dec nf ++ dec nb /\ 1 <= nf <= frank a.
Proof.
  intros Hw H Hin. rewrite (coupling_eq a Hw) in H. apply Ok_inj in H. subst cs. apply in_map_iff in Hin. destruct Hin as ([i j] & E & Hp).
  apply in_pairs in Hp. apply pair_equal_spec in E. destruct E as [E <-]. apply pair_equal_spec in E. destruct E as [E <-].
  apply pair_equal_spec in E. destruct E as [<- <-]. cbn [fst snd]. split; [|split; [reflexivity|lia]].
  unfold couple. cbn [fst snd]. destruct Hw as [->| ->]; [left|right];
    rewrite skipn_app, repeat_length, Nat.sub_diag, (@skipn_all2 _ j (repeat _ j)) by (rewrite repeat_length; lia); reflexivity.
Qed.
Lemma coupling_orb a w cs name key nf nb c : w = Wt \/ w = Wl -> coupling_cluster_ranks a w = Ok cs -> In (name, key, nf, nb) cs ->
  In c (skipn nb key) -> orb c.
Proof.
  intros Hw H Hin Hc. destruct (@coupling_skip _ _ _ _ _ _ _ Hw H Hin) as [[E|E] _]; rewrite E in Hc; apply in_app_or in Hc; unfold orb; cbn;
    destruct Hc as [Hc|Hc]; apply repeat_spec in Hc; subst; cbn; tauto.
Qed.

(** The names of the three kinds of amplitudes are disjoint. *)
Definition all_names (fs bs : list entry) (cs : list (pystr * pystr * nat * nat)) : list pystr :=
  map (fun e => fst (fst e)) fs ++ map (fun e => fst (fst e)) bs ++ map (fun e => fst (fst (fst e))) cs.
Lemma names_nodup a rspin w fs bs cs : w = Wt \/ w = Wl -> distinct_names a rspin w -> fermionic_cluster_ranks a rspin w = Ok fs ->
  bosonic_cluster_ranks a w = Ok bs -> coupling_cluster_ranks a w = Ok cs -> NoDup (all_names fs bs cs).
Proof.
  intros Hw [D1 D2] Ef Eb Ec. unfold all_names. destruct (@boson_wf _ _ _ Eb) as (N2 & _ & B2).
  destruct (@fermionic_entries _ _ _ _ Ef) as (_ & _ & F2).
  assert (FN : forall x, In x (map (fun e => fst (fst e)) fs) -> exists d s, x = symbol w ++ (48 + d) :: s /\ d < 10).
  { intros x Hx. apply in_map_iff in Hx. destruct Hx as ([[n k] r] & <- & Hin). specialize (F2 _ Hin). unfold entry_ok in F2. destruct F2 as (Hr & (s & -> & _) & _).
    exists r, s. cbn [fst]. rewrite dec_small by lia. split; [reflexivity|lia]. }
  assert (BN : forall x, In x (map (fun e => fst (fst e)) bs) -> exists s, x = bsymbol w ++ s).
  { intros x Hx. apply in_map_iff in Hx. destruct Hx as ([[n k] r] & <- & Hin). destruct (B2 _ _ _ Hin) as (-> & _). eexists; reflexivity. }
  assert (CN : forall x, In x (map (fun e => fst (fst (fst e))) cs) -> exists s, x = csymbol w ++ s).
  { intros x Hx. apply in_map_iff in Hx. destruct Hx as ([[[n k] r] q] & <- & Hin). destruct (@coupling_skip _ _ _ _ _ _ _ Hw Ec Hin) as (_ & -> & _). eexists; reflexivity. }
  apply NoDup_app_intro; [apply D1, Ef| |].
  - apply NoDup_app_intro; [exact N2|apply D2, Ec|]. intros x H1 H2. destruct (BN x H1) as (s & ->). destruct (CN _ H2) as (s' & E).
    destruct Hw as [->| ->]; discriminate E.
  - intros x H1 H2. destruct (FN x H1) as (d & s & -> & Hd). apply in_app_or in H2. destruct H2 as [H2|H2].
    + destruct (BN _ H2) as (s' & E). destruct Hw as [->| ->]; cbn in E; injection E; lia || (intros; discriminate).
    + destruct (CN _ H2) as (s' & E). destruct Hw as [->| ->]; cbn in E; injection E; lia || (intros; discriminate).
Qed.

(** * Restricted and general layouts. *)
Section RG.
  Variables (a : ansatz) (sp : space) (nbos : nat) (rspin : bool) (w : which).
  Hypothesis (Hw : w = Wt \/ w = Wl).
  Variables (fs bs : list entry) (cs : list (pystr * pystr * nat * nat)).
  Hypotheses (Ef : fermionic_cluster_ranks a rspin w = Ok fs) (Eb : bosonic_cluster_ranks a w = Ok bs) (Ec : coupling_cluster_ranks a w = Ok cs).

  Lemma rg_layout_ok : exists lay, rg_layout a sp nbos rspin w = Ok lay.
  Proof.
    unfold rg_layout. rewrite Ef. cbn [bind].
    match goal with |- context [mapM ?f fs] => destruct (@mapM_total _ _ f fs) as (bf & E1) end.
    { intros [[name key] n] Hin. destruct (@key_shape_total sp key) as (s & E).
      { intros c Hc. destruct (@fermionic_entries _ _ _ _ Ef) as (_ & _ & F2). exact (@entry_orb w _ c Hw (F2 _ Hin) Hc). }
      rewrite E. cbn. eexists; reflexivity. }
    rewrite E1. cbn [bind]. rewrite Eb. cbn [bind]. rewrite Ec. cbn [bind].
    match goal with |- context [mapM ?f cs] => destruct (@mapM_total _ _ f cs) as (bc & E2) end.
    { intros [[[name key] nf] nb] Hin. destruct (@key_shape_total sp (skipn nb key)) as (s & E).
      { intros c Hc. exact (@coupling_orb _ _ _ _ _ _ _ c Hw Ec Hin Hc). }
      rewrite E. cbn. eexists; reflexivity. }
    rewrite E2. cbn. eexists; reflexivity.
  Qed.

  Variable lay : layout.
  Hypothesis EL : rg_layout a sp nbos rspin w = Ok lay.
  Lemma rg_layout_in : (forall name b, In (name, b) lay <->
      (exists key n s, In (name, key, n) fs /\ sized_by sp key s /\ b = BArr (Raw (prodn s) s)) \/
      (exists key n, In (name, key, n) bs /\ b = BArr (Raw (prodn (repeat nbos n)) (repeat nbos n))) \/
      (exists key nf nb s, In (name, key, nf, nb) cs /\ sized_by sp (skipn nb key) s /\
         b = BArr (Raw (prodn (repeat nbos nb ++ s)) (repeat nbos nb ++ s)))) /\
    map fst lay = all_names fs bs cs.
  Proof.
    pose proof EL as H. unfold rg_layout in H. rewrite Ef in H. cbn [bind] in H.
    match type of H with bind (mapM ?f fs) _ = _ => destruct (mapM f fs) as [bf|] eqn:E1; [|discriminate] end. cbn [bind] in H.
    rewrite Eb in H. cbn [bind] in H. cbv zeta in H. rewrite Ec in H. cbn [bind] in H.
    match type of H with bind (mapM ?f cs) _ = _ => destruct (mapM f cs) as [bc|] eqn:E2; [|discriminate] end. cbn [bind] in H.
    apply Ok_inj in H. apply mapM_F2 in E1. apply mapM_F2 in E2. subst lay. split.
    - intros name b. rewrite !in_app_iff. split.
      + intros [Hin|[Hin|Hin]].
        * left. destruct (F2_in_r _ E1 Hin) as ([[n' key] n] & I & E). destruct (key_shape sp key) as [s|] eqn:Es; [|discriminate].
          cbn in E. apply Ok_pair in E. destruct E as [-> <-]. exists key, n, s. split; [exact I|]. split; [apply key_shape_spec, Es|reflexivity].
        * right. left. apply in_map_iff in Hin. destruct Hin as ([[n' key] n] & E & I). apply pair_equal_spec in E. destruct E as [-> <-]. exists key, n. split; [exact I|reflexivity].
        * right. right. destruct (F2_in_r _ E2 Hin) as ([[[n' key] nf] nb] & I & E). destruct (key_shape sp (skipn nb key)) as [s|] eqn:Es; [|discriminate].
          cbn in E. apply Ok_pair in E. destruct E as [-> <-]. exists key, nf, nb, s. split; [exact I|]. split; [apply key_shape_spec, Es|reflexivity].
      + intros [(key & n & s & I & Hs & ->)|[(key & n & I & ->)|(key & nf & nb & s & I & Hs & ->)]].
        * left. destruct (F2_in_l _ E1 I) as (y & Iy & E). cbn beta iota in E. apply key_shape_spec in Hs. rewrite Hs in E. cbn in E. apply Ok_inj in E. subst y. exact Iy.
        * right. left. apply in_map_iff. exists (name, key, n). split; [reflexivity|exact I].
        * right. right. destruct (F2_in_l _ E2 I) as (y & Iy & E). cbn beta iota in E. apply key_shape_spec in Hs. rewrite Hs in E. cbn in E. apply Ok_inj in E. subst y. exact Iy.
    - rewrite !map_app. unfold all_names. f_equal; [|f_equal].
      + clear - E1. induction E1 as [|[[n' key] n] y l l' E _ IH]; [reflexivity|]. cbn [map]. f_equal; [|exact IH].
        destruct (key_shape sp key); [|discriminate]. cbn in E. apply Ok_inj in E. subst y. reflexivity.
      + rewrite map_map. apply map_ext. intros [[n' key] n]. reflexivity.
      + clear - E2. induction E2 as [|[[[n' key] nf] nb] y l l' E _ IH]; [reflexivity|]. cbn [map]. f_equal; [|exact IH].
        destruct (key_shape sp (skipn nb key)); [|discriminate]. cbn in E. apply Ok_inj in E. subst y. reflexivity.
  Qed.

  Lemma rg_layout_good : layout_ok lay /\ Forall (fun nb => block_raw (snd nb)) lay /\ Forall (fun nb => block_nodup (snd nb)) lay.
  Proof.
    destruct rg_layout_in as [HL _].
    assert (H : Forall (fun nb => exists s, snd nb = BArr (Raw (prodn s) s)) lay).
    { apply Forall_forall. intros [name b] Hin. apply HL in Hin. cbn [snd]. destruct Hin as [(key & n & s & _ & _ & ->)|[(key & n & _ & ->)|(key & nf & nb & s & _ & _ & ->)]]; eexists; reflexivity. }
    repeat split; (eapply Forall_impl; [|exact H]); intros [name b] (s & E); cbn [snd] in *; subst b; cbn; auto.
  Qed.

  Lemma rg_namespace_fits (K : rng) (amps : dict pystr (tval K)) : rg_namespace a sp nbos rspin w amps <->
    layout_fits K lay amps /\ forall name, dget pystr_eq_dec name amps <> None -> In name (map fst lay).
  Proof.
    destruct rg_layout_in as [HL HN]. rewrite HN. unfold all_names. split.
    - intros [R1 R2 R3 R4]. split.
      + intros name b Hin. apply HL in Hin. destruct Hin as [(key & n & s & I & Hs & ->)|[(key & n & I & ->)|(key & nf & nb & s & I & Hs & ->)]].
        * destruct (R1 _ _ _ _ Ef I) as (x & E & W & Sx). exists (VArr x). split; [exact E|]. split; [exact W|]. exact (sized_fun Sx Hs).
        * destruct (R2 _ _ _ _ Eb I) as (x & E & W & Sx). exists (VArr x). split; [exact E|]. split; [exact W|exact Sx].
        * destruct (R3 _ _ _ _ _ Ec I) as (x & s' & E & W & Sx & Hs'). exists (VArr x). split; [exact E|]. split; [exact W|]. rewrite Sx. f_equal. exact (sized_fun Hs' Hs).
      + intros name H. destruct (dget pystr_eq_dec name amps) as [x|] eqn:E; [|congruence]. rewrite !in_app_iff. exact (R4 _ _ _ _ _ Ef Eb Ec E).
    - intros [HF HO].
      assert (FN : forall name b, In (name, b) lay -> exists s x, b = BArr (Raw (prodn s) s) /\ dget pystr_eq_dec name amps = Some (VArr x) /\ wf x /\ shp x = s).
      { intros name b Hin. destruct (HF _ _ Hin) as (t & E & Hb).
        assert (exists s, b = BArr (Raw (prodn s) s)) as (s & ->).
        { apply HL in Hin. destruct Hin as [(key & n & s & _ & _ & ->)|[(key & n & _ & ->)|(key & nf & nb & s & _ & _ & ->)]]; eexists; reflexivity. }
        destruct t as [x|d]; [|contradiction Hb]. destruct Hb as [W Sx]. exists s, x. repeat split; assumption. }
      constructor.
      + intros fs' name key n Ef' I. rewrite Ef in Ef'. apply Ok_inj in Ef'. subst fs'.
        destruct (@key_shape_total sp key) as (s & Es).
        { intros c Hc. destruct (@fermionic_entries _ _ _ _ Ef) as (_ & _ & F2). exact (@entry_orb w _ c Hw (F2 _ I) Hc). }
        apply key_shape_spec in Es. destruct (FN name (BArr (Raw (prodn s) s))) as (s' & x & E1 & E2 & W & E3).
        { apply HL. left. exists key, n, s. repeat split; assumption. }
        injection E1 as _ <-. exists x. split; [exact E2|]. split; [exact W|]. rewrite E3. exact Es.
      + intros bs' name key n Eb' I. rewrite Eb in Eb'. apply Ok_inj in Eb'. subst bs'.
        destruct (FN name (BArr (Raw (prodn (repeat nbos n)) (repeat nbos n)))) as (s' & x & E1 & E2 & W & E3).
        { apply HL. right. left. exists key, n. split; [exact I|reflexivity]. }
        injection E1 as _ <-. exists x. repeat split; assumption.
      + intros cs' name key nf nb Ec' I. rewrite Ec in Ec'. apply Ok_inj in Ec'. subst cs'.
        destruct (@key_shape_total sp (skipn nb key)) as (s & Es).
        { intros c Hc. exact (@coupling_orb _ _ _ _ _ _ _ c Hw Ec I Hc). }
        apply key_shape_spec in Es. destruct (FN name (BArr (Raw (prodn (repeat nbos nb ++ s)) (repeat nbos nb ++ s)))) as (s' & x & E1 & E2 & W & E3).
        { apply HL. right. right. exists key, nf, nb, s. repeat split; assumption. }
        injection E1 as _ <-. exists x, s. repeat split; assumption.
      + intros fs' bs' cs' name x Ef' Eb' Ec' E. rewrite Ef in Ef'. rewrite Eb in Eb'. rewrite Ec in Ec'. apply Ok_inj in Ef', Eb', Ec'. subst.
        specialize (HO name). rewrite !in_app_iff in HO. apply HO. congruence.
  Qed.

  Lemma rg_some_chunk : (fs <> [] \/ bs <> [] \/ cs <> []) -> some_chunk lay.
  Proof.
    intros H. destruct rg_layout_in as [HL _]. destruct H as [H|[H|H]].
    - destruct fs as [|[[name key] n] fs'] eqn:F; [congruence|]. destruct (@key_shape_total sp key) as (s & Es).
      { intros c Hc. destruct (@fermionic_entries _ _ _ _ Ef) as (_ & _ & F2). exact (@entry_orb w _ c Hw (F2 _ (or_introl eq_refl)) Hc). }
      apply key_shape_spec in Es. exists (name, BArr (Raw (prodn s) s)). split; [|exact I]. apply HL. left. exists key, n, s. split; [left; reflexivity|split; [exact Es|reflexivity]].
    - destruct bs as [|[[name key] n] bs'] eqn:F; [congruence|]. exists (name, BArr (Raw (prodn (repeat nbos n)) (repeat nbos n))). split; [|exact I]. apply HL. right. left. exists key, n. split; [left; reflexivity|reflexivity].
    - destruct cs as [|[[[name key] nf] nb] cs'] eqn:F; [congruence|]. destruct (@key_shape_total sp (skipn nb key)) as (s & Es).
      { intros c Hc. exact (@coupling_orb _ _ _ _ _ _ _ c Hw Ec (or_introl eq_refl) Hc). }
      apply key_shape_spec in Es. exists (name, BArr (Raw (prodn (repeat nbos nb ++ s)) (repeat nbos nb ++ s))). split; [|exact I]. apply HL. right. right. exists key, nf, nb, s. split; [left; reflexivity|split; [exact Es|reflexivity]].
  Qed.
End RG.

Lemma same_ns_from {K : rng} (lay : layout) (amps res : dict pystr (tval K)) :
  (forall name, dget pystr_eq_dec name amps <> None -> In name (map fst lay)) ->
  (forall name, if in_dec pystr_eq_dec name (map fst lay) then same_entry (dget pystr_eq_dec name res) (dget pystr_eq_dec name amps)
                else dget pystr_eq_dec name res = dget pystr_eq_dec name ([] : dict pystr (tval K))) ->
  same_namespace res amps.
Proof.
  intros HO H name. specialize (H name). destruct (in_dec pystr_eq_dec name (map fst lay)) as [I|N]; [exact H|].
  rewrite H. cbn. destruct (dget pystr_eq_dec name amps) eqn:E; [|exact I]. exfalso. apply N, HO. congruence.
Qed.

Lemma rg_forward (K : rng) a sp nbos rspin w (amps : dict pystr (tval K)) : w = Wt \/ w = Wl -> has_amplitudes a rspin w ->
  rg_namespace a sp nbos rspin w amps ->
  exists v amps', rg_to_vector K a sp nbos rspin w amps = Ok v /\ rg_from_vector K a sp nbos rspin w v = Ok amps' /\ same_namespace amps' amps.
Proof.
  intros Hw (fs & bs & cs & Ef & Eb & Ec & HNE) HR. destruct (@rg_layout_ok a sp nbos rspin w Hw fs bs cs Ef Eb Ec) as (lay & EL).
  apply (@rg_namespace_fits a sp nbos rspin w Hw fs bs cs Ef Eb Ec lay EL) in HR. destruct HR as [HF HO].
  destruct (@rg_layout_good a sp nbos rspin w fs bs cs Ef Eb Ec lay EL) as (G1 & G2 & G3).
  destruct (@layout_forward K lay amps (or_introl G2) G1 HF) as (vs & E1 & E2 & E3).
  destruct (E3 [] [] []) as (res & E4 & E5). cbn [app length] in E4. rewrite app_nil_r in E4.
  exists (concat (concat vs)), res. unfold rg_to_vector, rg_from_vector. rewrite EL. cbn [bind]. rewrite E4. cbn [bind].
  split; [apply to_vector_ok; [|exact E1]; exact (@rg_some_chunk a sp nbos rspin w Hw fs bs cs Ef Eb Ec lay EL HNE)|]. split; [reflexivity|].
  exact (@same_ns_from K lay amps res HO E5).
Qed.

Lemma slice_firstn {A} i c n (v : list A) : i + c <= n -> slice i (i + c) (firstn n v) = slice i (i + c) v.
Proof.
  intros H. unfold slice. replace (i + c - i) with c by lia. rewrite skipn_firstn_comm, firstn_firstn. f_equal. lia.
Qed.
Lemma read_codec_prefix (K : rng) c (v : list K) n i0 : i0 + csize c <= n -> read_codec K c (firstn n v) i0 = read_codec K c v i0.
Proof. intros H. unfold read_codec. rewrite slice_firstn by exact H. reflexivity. Qed.
Lemma read_spins_prefix (K : rng) cs (v : list K) n : forall i0 acc, i0 + list_sum (map (fun sc => csize (snd sc)) cs) <= n ->
  read_spins K cs (firstn n v) i0 acc = read_spins K cs v i0 acc.
Proof.
  induction cs as [|[s c] cs IH]; intros i0 acc H; [reflexivity|]. cbn [read_spins]. cbn in H. rewrite read_codec_prefix by lia.
  unfold read_codec. destruct (decode K c _) as [x|]; [|reflexivity]. cbn [bind fst snd]. apply IH. unfold list_sum. lia.
Qed.
Lemma read_blocks_prefix (K : rng) lay (v : list K) n : forall i0 acc, i0 + lsize lay <= n ->
  read_blocks K lay (firstn n v) i0 acc = read_blocks K lay v i0 acc.
Proof.
  induction lay as [|[s b] lay IH]; intros i0 acc H; [reflexivity|]. cbn [read_blocks]. change (lsize ((s, b) :: lay)) with (bsize b + lsize lay) in H.
  assert (E : read_block K b (firstn n v) i0 = read_block K b v i0).
  { destruct b as [c|cs]; cbn [read_block bsize] in *; [rewrite read_codec_prefix by lia|rewrite read_spins_prefix by lia]; reflexivity. }
  rewrite E. destruct (read_block K b v i0) as [[t j]|] eqn:Et; [|reflexivity]. cbn [bind fst snd]. apply IH.
  assert (read_blocks K [(s, b)] v i0 [] = Ok ([(s, t)], j)) by (cbn [read_blocks]; rewrite Et; reflexivity).
  apply read_blocks_end in H0. change (lsize [(s, b)]) with (bsize b + 0) in H0. lia.
Qed.
Lemma read_blocks_short (K : rng) lay (v : list K) : layout_ok lay -> Forall (fun nb => exists c, snd nb = BArr c /\ raw c) lay ->
  forall i0 acc d i1, i0 <= length v -> read_blocks K lay v i0 acc = Ok (d, i1) -> i1 <= length v.
Proof.
  induction lay as [|[s b] lay IH]; intros Hok HR i0 acc d i1 Hi H; cbn [read_blocks] in H.
  - apply Ok_pair in H. destruct H as [_ <-]. exact Hi.
  - destruct (read_block K b v i0) as [[t j]|] eqn:E; [|discriminate]. cbn [bind fst snd] in H.
    apply (IH (Forall_inv_tail Hok) (Forall_inv_tail HR) _ _ _ _ ) in H; [exact H|].
    destruct (Forall_inv HR) as (c & Eb & Hr). cbn [snd] in Eb. subst b. destruct c as [n sh|]; [|destruct Hr].
    pose proof (Forall_inv Hok) as Hn. cbn in Hn. cbn [read_block] in E. unfold read_codec in E. cbn [decode csize] in E. unfold reshape in E. cbn [shp prodn fold_right] in E.
    fold (prodn sh) in E. destruct (Nat.eqb_spec (prodn sh) (length (slice i0 (i0 + n) v) * 1)) as [En|]; [|discriminate].
    cbn in E. injection E as _ <-. unfold slice in En. rewrite firstn_length, skipn_length in En. lia.
Qed.

Lemma rg_backward (K : rng) a sp nbos rspin w : w = Wt \/ w = Wl -> has_amplitudes a rspin w ->
  exists size, (forall amps : dict pystr (tval K), rg_namespace a sp nbos rspin w amps -> forall v, rg_to_vector K a sp nbos rspin w amps = Ok v -> length v = size) /\
    (forall v, is_ok (rg_from_vector K a sp nbos rspin w v) = true -> size <= length v) /\
    (forall v, size <= length v -> rg_from_vector K a sp nbos rspin w v = rg_from_vector K a sp nbos rspin w (firstn size v)) /\
    (distinct_names a rspin w -> forall v, length v = size -> exists amps, rg_from_vector K a sp nbos rspin w v = Ok amps /\
       rg_namespace a sp nbos rspin w amps /\ rg_to_vector K a sp nbos rspin w amps = Ok v).
Proof.
  intros Hw (fs & bs & cs & Ef & Eb & Ec & HNE). destruct (@rg_layout_ok a sp nbos rspin w Hw fs bs cs Ef Eb Ec) as (lay & EL).
  destruct (@rg_layout_good a sp nbos rspin w fs bs cs Ef Eb Ec lay EL) as (G1 & G2 & G3).
  destruct (@rg_layout_in a sp nbos rspin w fs bs cs Ef Eb Ec lay EL) as (HL & HN).
  exists (lsize lay). unfold rg_to_vector, rg_from_vector. rewrite EL. cbn [bind]. split; [|split; [|split]].
  - intros amps HR v E. apply (@rg_namespace_fits a sp nbos rspin w Hw fs bs cs Ef Eb Ec lay EL) in HR. destruct HR as [HF HO].
    destruct (@layout_forward K lay amps (or_introl G2) G1 HF) as (vs & E1 & E2 & E3).
    rewrite (@to_vector_ok K lay amps vs (@rg_some_chunk a sp nbos rspin w Hw fs bs cs Ef Eb Ec lay EL HNE) E1) in E. apply Ok_inj in E. subst v. exact E2.
  - intros v H. destruct (read_blocks K lay v 0 []) as [[res j]|] eqn:E; [|discriminate].
    pose proof (@read_blocks_end K lay v _ _ _ _ E) as Ej. cbn in Ej. rewrite <- Ej.
    apply (@read_blocks_short K lay v G1) in E; [exact E| |lia]. apply Forall_forall. intros [name b] Hin. apply HL in Hin. cbn [snd].
    destruct Hin as [(key & n & s & _ & _ & ->)|[(key & n & _ & ->)|(key & nf & nb & s & _ & _ & ->)]]; eexists; (split; [reflexivity|exact I]).
  - intros v Hv. rewrite read_blocks_prefix by (cbn; lia). reflexivity.
  - intros HD v Hv. pose proof (@names_nodup a rspin w fs bs cs Hw HD Ef Eb Ec) as ND. rewrite <- HN in ND.
    destruct (@layout_backward K lay v G1 G3 ND 0 []) as (res & vs & E1 & E2 & E3 & E4 & E5); [lia|].
    exists res. rewrite E1. cbn [bind]. split; [reflexivity|]. split.
    + apply (@rg_namespace_fits a sp nbos rspin w Hw fs bs cs Ef Eb Ec lay EL). split; [exact E4|]. intros name H.
      destruct (in_dec pystr_eq_dec name (map fst lay)) as [I|N]; [exact I|]. exfalso. apply H. rewrite E5 by exact N. reflexivity.
    + rewrite (@to_vector_ok K lay res vs (@rg_some_chunk a sp nbos rspin w Hw fs bs cs Ef Eb Ec lay EL HNE) E2). f_equal. rewrite E3.
      unfold slice. cbn [Nat.add skipn]. rewrite Nat.sub_0_r. apply firstn_all2. lia.
Qed.

(** * The unrestricted layout. *)
Definition spin_of (s : nat) : Prop := s = 97 \/ s = 98.
Lemma u_sizes_ok sa sb : exists sizes, u_sizes sa sb = Ok sizes /\ sizes <> [] /\
  forall c s, orb c -> spin_of s -> exists n, sp_size (if s =? chr_of "a" then sa else sb) c = Ok n /\ dget pystr_eq_dec [c; s] sizes = Some n.
Proof.
  eexists. split; [reflexivity|]. split; [discriminate|]. intros c s Hc [->| ->]; unfold orb in Hc; cbn in Hc;
    repeat (destruct Hc as [<-|Hc]; [eexists; split; reflexivity|]); destruct Hc.
Qed.
Lemma nth_combine2 {A B} (l1 : list A) (l2 : list B) i a b : length l1 = length l2 -> i < length l1 ->
  nth i (combine l1 l2) (a, b) = (nth i l1 a, nth i l2 b).
Proof. intros H _. apply combine_nth, H. Qed.
Lemma spin_shape_spec sa sb (key spin : pystr) s : (forall c, In c spin -> spin_of c) ->
  spin_shape sa sb key spin = Ok s <-> spin_sized_by sa sb key spin s.
Proof.
  intros Hs. unfold spin_shape, spin_sized_by. rewrite mapM_F2.
  assert (HC : forall sk, In sk (combine spin key) -> spin_of (fst sk)).
  { intros [x y] Hin. apply Hs. cbn. exact (in_combine_l _ _ _ _ Hin). }
  revert s HC. generalize (combine spin key). intros l. induction l as [|sk l IH]; intros s HC; split; intros H; inversion H; subst; constructor.
  - destruct (HC sk (or_introl eq_refl)) as [E|E]; unfold spin_space in *; rewrite E in *; cbn in *; assumption.
  - apply IH; [intros; apply HC; right; assumption|assumption].
  - destruct (HC sk (or_introl eq_refl)) as [E|E]; unfold spin_space in *; rewrite E in *; cbn in *; assumption.
  - apply IH; [intros; apply HC; right; assumption|assumption].
Qed.
Lemma F2_nth' {A B} (R : A -> B -> Prop) l l' a b i : Forall2 R l l' -> i < length l -> R (nth i l a) (nth i l' b).
Proof. intros H. revert i. induction H as [|x y l l' HR H IH]; intros i Hi; [cbn in Hi; lia|]. destruct i; [exact HR|]. cbn. apply IH. cbn in Hi. lia. Qed.

Lemma u_packed_ok sa sb sizes (key spin : pystr) : u_sizes sa sb = Ok sizes -> (forall c, In c key -> orb c) -> (forall c, In c spin -> spin_of c) ->
  length spin = length key -> length key <= 91 ->
  exists sub n s, u_packed sa sb sizes key spin = Ok (spin, Packed sub n s) /\ codec_ok (Packed sub n s) /\ spin_sized_by sa sb key spin s /\
    length sub = length key /\
    (forall i j, i < length key -> j < length key -> (nth i sub 0 = nth j sub 0 <-> nth i key 0 = nth j key 0 /\ nth i spin 0 = nth j spin 0)).
Proof.
  intros ES Hk Hs Hl H91. destruct (u_sizes_ok sa sb) as (sizes' & ES' & HNE & HG). rewrite ES in ES'. apply Ok_inj in ES'. subst sizes'.
  assert (HD : forall i, i < length key -> exists n, sp_size (if nth i spin 0 =? chr_of "a" then sa else sb) (nth i key 0) = Ok n /\ dget pystr_eq_dec [nth i key 0; nth i spin 0] sizes = Some n).
  { intros i Hi. apply HG; [apply Hk, nth_In, Hi|apply Hs, nth_In; lia]. }
  assert (HC : is_ok (combine_subscripts [key; spin] sizes) = true).
  { apply C10_combine_succeeds. exists key, [spin]. split; [reflexivity|]. split; [intros s [<-|[<-|[]]]; [reflexivity|exact Hl]|]. split.
    - eapply Nat.le_trans; [apply NoDup_incl_length; [apply NoDup_nodup|intros x Hx; apply nodup_In in Hx; exact Hx]|]. rewrite map_length, seq_length. exact H91.
    - right. intros i Hi. destruct (HD i Hi) as (n & _ & E). cbn [map]. congruence. }
  destruct (combine_subscripts [key; spin] sizes) as [[sub sz]|] eqn:EC; [|discriminate].
  destruct (@C10_combine_subscripts _ _ _ _ EC) as (L1 & L2 & _ & L3).
  assert (Ls : length sub = length key) by (symmetry; apply L1; left; reflexivity).
  assert (Heq : forall i j, i < length key -> j < length key -> (nth i sub 0 = nth j sub 0 <-> nth i key 0 = nth j key 0 /\ nth i spin 0 = nth j spin 0)).
  { intros i j Hi Hj. rewrite L2 by lia. split; [intros H; split; apply H; [left|right; left]; reflexivity|]. intros [H1 H2] s [<-|[<-|[]]]; assumption. }
  destruct (@mapM_total _ _ (fun sk => sp <- spin_space sa sb (fst sk) ;; sp_size sp (snd sk)) (combine spin key)) as (s & Es).
  { intros [x y] Hin. cbn [fst snd]. unfold spin_space. destruct (orb_size sa (Hk y (in_combine_r _ _ _ _ Hin))) as (n1 & E1).
    destruct (orb_size sb (Hk y (in_combine_r _ _ _ _ Hin))) as (n2 & E2). destruct (Hs x (in_combine_l _ _ _ _ Hin)) as [->| ->]; cbn; [exists n1|exists n2]; assumption. }
  assert (Ess : spin_sized_by sa sb key spin s) by (apply spin_shape_spec; [exact Hs|exact Es]).
  assert (Hlen : length s = length key). { pose proof (Forall2_len Ess) as X. rewrite combine_length in X. lia. }
  assert (Hn : forall i, i < length key -> sp_size (if nth i spin 0 =? chr_of "a" then sa else sb) (nth i key 0) = Ok (nth i s 0)).
  { intros i Hi. pose proof (@F2_nth' _ _ _ _ _ (0, 0) 0 i Ess) as X. rewrite combine_length in X. rewrite nth_combine2 in X by lia. cbn [fst snd] in X. apply X. lia. }
  assert (HE : extents_ok sub s).
  { split; [congruence|]. intros i j Hi Hj E. rewrite Ls in *. apply Heq in E; [|assumption..]. destruct E as [E1 E2].
    pose proof (Hn i Hi) as X. rewrite E1, E2, (Hn j Hj) in X. apply Ok_inj in X. symmetry; exact X. }
  assert (HDs : describes sub s sz).
  { intros i Hi. destruct (L3 HNE i Hi) as (n & E1 & E2). rewrite Ls in Hi. cbn [map] in E1. rewrite E2. destruct (HD i Hi) as (n' & E3 & E4). rewrite E4 in E1. injection E1 as <-. rewrite (Hn i Hi) in E3. apply Ok_inj in E3. congruence. }
  destruct (@C07_compressed_size Z_rng sub sz (full s 0%Z) HE HDs) as (c & _ & En & _).
  exists sub, (length (dat c)), s. unfold u_packed. rewrite EC. cbn [bind fst snd]. rewrite En. cbn [bind].
  unfold spin_shape. rewrite Es. split; [reflexivity|]. split; [split; [exact HE|exists sz; split; assumption]|]. split; [exact Ess|]. split; [exact Ls|exact Heq].
Qed.

Lemma spins_ok n spin : In spin (generate_spin_combinations n false true) -> length spin = 2 * n /\ forall c, In c spin -> spin_of c.
Proof.
  intros H. destruct (unique_counts n) as [U _]. destruct (U spin H) as (t & [L T] & ->). rewrite app_length. split; [lia|].
  intros c Hc. apply in_app_or in Hc. unfold spin_of. destruct Hc as [Hc|Hc]; apply T, Hc.
Qed.
Lemma spins_nodup n : NoDup (generate_spin_combinations n false true) /\ generate_spin_combinations n false true <> [].
Proof.
  destruct (unique_counts n) as [_ P]. split.
  - eapply NoDup_map_inv. eapply Permutation_NoDup; [apply Permutation_sym, P|apply seq_NoDup].
  - intros E. rewrite E in P. cbn in P. apply Permutation_nil in P. destruct n; discriminate.
Qed.

Section U.
  Variables (a : ansatz) (sa sb : space) (nbos : nat) (w : which).
  Hypothesis (Hw : w = Wt \/ w = Wl).
  Hypothesis (Hf1 : frank a <= 1).
  Variables (fs bs : list entry) (cs : list (pystr * pystr * nat * nat)).
  Hypotheses (Ef : fermionic_cluster_ranks a false w = Ok fs) (Eb : bosonic_cluster_ranks a w = Ok bs) (Ec : coupling_cluster_ranks a w = Ok cs).
  Variable sizes : dict pystr nat.
  Hypothesis ES : u_sizes sa sb = Ok sizes.

  Lemma entry_packed name key n spin : In (name, key, n) fs -> In spin (generate_spin_combinations n false true) ->
    exists sub m s, u_packed sa sb sizes key spin = Ok (spin, Packed sub m s) /\ codec_ok (Packed sub m s) /\ spin_sized_by sa sb key spin s /\
      length sub = length key /\
      (forall i j, i < length key -> j < length key -> (nth i sub 0 = nth j sub 0 <-> nth i key 0 = nth j key 0 /\ nth i spin 0 = nth j spin 0)).
  Proof.
    intros Hin Hs. destruct (@fermionic_entries _ _ _ _ Ef) as (_ & _ & F2). specialize (F2 _ Hin).
    pose proof (fun c => @entry_orb w _ c Hw F2) as HO. pose proof (@entry_len w _ Hw F2) as [HL _]. cbn [fst snd] in HO, HL.
    destruct (@spins_ok _ _ Hs) as [L1 L2]. apply u_packed_ok; try assumption; clear Hf1; [lia|].
    destruct F2 as [B _]. lia.
  Qed.
  Lemma coup_shapes name key nf nb : In (name, key, nf, nb) cs -> nf = 1 /\ exists s0 s1, key_shape sa (skipn nb key) = Ok s0 /\ key_shape sb (skipn nb key) = Ok s1.
  Proof.
    intros Hin. destruct (@coupling_skip _ _ _ _ _ _ _ Hw Ec Hin) as (_ & _ & B). split; [lia|].
    destruct (@key_shape_total sa (skipn nb key)) as (s0 & E0). { intros c Hc. exact (@coupling_orb _ _ _ _ _ _ _ c Hw Ec Hin Hc). }
    destruct (@key_shape_total sb (skipn nb key)) as (s1 & E1). { intros c Hc. exact (@coupling_orb _ _ _ _ _ _ _ c Hw Ec Hin Hc). }
    exists s0, s1. split; assumption.
  Qed.

  Lemma u_layout_ok : exists lay, u_layout a sa sb nbos w = Ok lay.
  Proof.
    unfold u_layout. rewrite ES. cbn [bind]. rewrite Ef. cbn [bind].
    match goal with |- context [mapM ?f fs] => destruct (@mapM_total _ _ f fs) as (bf & E1) end.
    { intros [[name key] n] Hin. destruct (@mapM_total _ _ (u_packed sa sb sizes key) (generate_spin_combinations n false true)) as (ps & E).
      { intros spin Hs. destruct (@entry_packed name key n spin Hin Hs) as (sub & m & s & E & _). eexists; exact E. }
      rewrite E. cbn. eexists; reflexivity. }
    rewrite E1. cbn [bind]. rewrite Eb. cbn [bind]. rewrite Ec. cbn [bind].
    match goal with |- context [mapM ?f cs] => destruct (@mapM_total _ _ f cs) as (bc & E2) end.
    { intros [[[name key] nf] nb] Hin. destruct (@coup_shapes name key nf nb Hin) as (-> & s0 & s1 & E0 & E1'). cbn [negb Nat.eqb].
      rewrite E0, E1'. cbn. eexists; reflexivity. }
    rewrite E2. cbn. eexists; reflexivity.
  Qed.

  Variable lay : layout.
  Hypothesis EL : u_layout a sa sb nbos w = Ok lay.
  Definition rawof (nb : nat) (s : list nat) := Raw (prodn (repeat nbos nb ++ s)) (repeat nbos nb ++ s).
  Lemma u_layout_in : (forall name b, In (name, b) lay <->
      (exists key n ps, In (name, key, n) fs /\ Forall2 (fun spin p => u_packed sa sb sizes key spin = Ok p) (generate_spin_combinations n false true) ps /\ b = BSpin ps) \/
      (exists key n, In (name, key, n) bs /\ b = BArr (Raw (prodn (repeat nbos n)) (repeat nbos n))) \/
      (exists key nf nb s0 s1, In (name, key, nf, nb) cs /\ sized_by sa (skipn nb key) s0 /\ sized_by sb (skipn nb key) s1 /\
         b = BSpin [(str "aa", rawof nb s0); (str "bb", rawof nb s1)])) /\
    map fst lay = all_names fs bs cs.
  Proof.
    assert (EP : forall n, nbos ^ n = prodn (repeat nbos n)). { induction n as [|n IH]; [reflexivity|]. cbn [Nat.pow repeat prodn fold_right]. rewrite IH. reflexivity. }
    pose proof EL as H. unfold u_layout in H. rewrite ES in H. cbn [bind] in H. rewrite Ef in H. cbn [bind] in H.
    match type of H with bind (mapM ?f fs) _ = _ => destruct (mapM f fs) as [bf|] eqn:E1; [|discriminate] end. cbn [bind] in H.
    rewrite Eb in H. cbn [bind] in H. cbv zeta in H. rewrite Ec in H. cbn [bind] in H.
    match type of H with bind (mapM ?f cs) _ = _ => destruct (mapM f cs) as [bc|] eqn:E2; [|discriminate] end. cbn [bind] in H.
    apply Ok_inj in H. apply mapM_F2 in E1. apply mapM_F2 in E2. subst lay. split.
    - intros name b. rewrite !in_app_iff. split.
      + intros [Hin|[Hin|Hin]].
        * left. destruct (F2_in_r _ E1 Hin) as ([[n' key] n] & I & E). destruct (mapM (u_packed sa sb sizes key) _) as [ps|] eqn:Es; [|discriminate].
          cbn in E. apply Ok_pair in E. destruct E as [-> <-]. exists key, n, ps. split; [exact I|]. split; [apply mapM_F2, Es|reflexivity].
        * right. left. apply in_map_iff in Hin. destruct Hin as ([[n' key] n] & E & I). apply pair_equal_spec in E. destruct E as [-> <-]. exists key, n. split; [exact I|]. rewrite EP. reflexivity.
        * right. right. destruct (F2_in_r _ E2 Hin) as ([[[n' key] nf] nb] & I & E). destruct (negb (nf =? 1)); [discriminate|].
          destruct (key_shape sa (skipn nb key)) as [s0|] eqn:Es0; [|discriminate]. destruct (key_shape sb (skipn nb key)) as [s1|] eqn:Es1; [|discriminate].
          cbn [bind] in E. apply Ok_pair in E. destruct E as [-> <-]. exists key, nf, nb, s0, s1. split; [exact I|]. split; [apply key_shape_spec, Es0|]. split; [apply key_shape_spec, Es1|reflexivity].
      + intros [(key & n & ps & I & Hs & ->)|[(key & n & I & ->)|(key & nf & nb & s0 & s1 & I & Hs0 & Hs1 & ->)]].
        * left. destruct (F2_in_l _ E1 I) as (y & Iy & E). cbn beta iota in E. apply mapM_F2 in Hs. rewrite Hs in E. cbn in E. apply Ok_inj in E. subst y. exact Iy.
        * right. left. apply in_map_iff. exists (name, key, n). split; [rewrite EP; reflexivity|exact I].
        * right. right. destruct (F2_in_l _ E2 I) as (y & Iy & E). cbn beta iota in E. destruct (negb (nf =? 1)); [discriminate|].
          apply key_shape_spec in Hs0. apply key_shape_spec in Hs1. rewrite Hs0, Hs1 in E. cbn [bind] in E. apply Ok_inj in E. subst y. exact Iy.
    - rewrite !map_app. unfold all_names. f_equal; [|f_equal].
      + clear - E1. induction E1 as [|[[n' key] n] y l l' E _ IH]; [reflexivity|]. cbn [map]. f_equal; [|exact IH].
        destruct (mapM _ _); [|discriminate]. cbn in E. apply Ok_inj in E. subst y. reflexivity.
      + rewrite map_map. apply map_ext. intros [[n' key] n]. reflexivity.
      + clear - E2. induction E2 as [|[[[n' key] nf] nb] y l l' E _ IH]; [reflexivity|]. cbn [map]. f_equal; [|exact IH].
        destruct (negb (nf =? 1)); [discriminate|]. destruct (key_shape sa (skipn nb key)); [|discriminate]. destruct (key_shape sb (skipn nb key)); [|discriminate]. cbn in E. apply Ok_inj in E. subst y. reflexivity.
  Qed.

  Lemma packed_list name key n ps : In (name, key, n) fs ->
    Forall2 (fun spin p => u_packed sa sb sizes key spin = Ok p) (generate_spin_combinations n false true) ps ->
    map fst ps = generate_spin_combinations n false true /\
    forall spin c, In (spin, c) ps -> In spin (generate_spin_combinations n false true) /\ exists sub m s, c = Packed sub m s /\ codec_ok c /\ spin_sized_by sa sb key spin s /\
      length sub = length key /\ (forall i j, i < length key -> j < length key -> (nth i sub 0 = nth j sub 0 <-> nth i key 0 = nth j key 0 /\ nth i spin 0 = nth j spin 0)).
  Proof.
    intros Hin H. split.
    - assert (forall spin, In spin (generate_spin_combinations n false true) -> forall p, u_packed sa sb sizes key spin = Ok p -> fst p = spin).
      { intros spin Hs p E. destruct (@entry_packed name key n spin Hin Hs) as (sub & m & s & E' & _). rewrite E in E'. apply Ok_inj in E'. subst p. reflexivity. }
      revert H H0. generalize (generate_spin_combinations n false true). intros l H. induction H as [|x y l l' E _ IH]; intros HA; [reflexivity|].
      cbn [map]. f_equal; [apply HA; [left; reflexivity|exact E]|apply IH; intros; apply HA; [right|]; assumption].
    - intros spin c Hi. destruct (F2_in_r _ H Hi) as (spin' & Hs & E). destruct (@entry_packed name key n spin' Hin Hs) as (sub & m & s & E' & Hc & Hz & Hl & He).
      rewrite E in E'. apply Ok_pair in E'. destruct E' as [<- ->]. split; [exact Hs|]. exists sub, m, s. split; [reflexivity|]. split; [exact Hc|]. split; [exact Hz|]. split; [exact Hl|exact He].
  Qed.

  Lemma u_layout_good : layout_ok lay /\ Forall (fun nb => block_nodup (snd nb)) lay.
  Proof.
    destruct u_layout_in as [HL _]. split; apply Forall_forall; intros [name b] Hin; apply HL in Hin; cbn [snd];
      destruct Hin as [(key & n & ps & I & HF & ->)|[(key & n & I & ->)|(key & nf & nb & s0 & s1 & I & _ & _ & ->)]]; cbn [block_ok block_nodup].
    - destruct (@packed_list name key n ps I HF) as [_ H]. apply Forall_forall. intros [spin c] Hc. destruct (H spin c Hc) as (_ & sub & m & s & _ & Hok & _). exact Hok.
    - reflexivity.
    - repeat constructor.
    - destruct (@packed_list name key n ps I HF) as [-> _]. apply spins_nodup.
    - exact Logic.I.
    - cbn. repeat constructor; cbn; intuition discriminate.
  Qed.

  Lemma antisym_iff (K : rng) (key spin sub : pystr) (x : arr K) : length sub = length key ->
    (forall i j, i < length key -> j < length key -> (nth i sub 0 = nth j sub 0 <-> nth i key 0 = nth j key 0 /\ nth i spin 0 = nth j spin 0)) ->
    (antisymmetric sub x <-> spin_antisymmetric key spin x).
  Proof.
    intros L HE. unfold antisymmetric, symmetric_as, spin_antisymmetric. rewrite L. split.
    - intros H idx i j Hi Hik Hjk Hij E1 E2. apply H; try assumption. apply HE; [assumption..|]. split; assumption.
    - intros H idx i j Hi Hik Hjk Hij E. apply HE in E; [|assumption..]. destruct E as [E1 E2]. apply H; assumption.
  Qed.
  Lemma spin_sized_fun key spin s s' : spin_sized_by sa sb key spin s -> spin_sized_by sa sb key spin s' -> s = s'.
  Proof.
    unfold spin_sized_by. generalize (combine spin key). intros l H. revert s'. induction H as [|x y l l' E _ IH]; intros s' H'; inversion H'; subst; [reflexivity|].
    f_equal; [congruence|apply IH; assumption].
  Qed.

  Lemma u_namespace_fits (K : rng) (amps : dict pystr (tval K)) : u_namespace a sa sb nbos w amps <->
    layout_fits K lay amps /\ forall name, dget pystr_eq_dec name amps <> None -> In name (map fst lay).
  Proof.
    destruct u_layout_in as [HL HN]. rewrite HN. unfold all_names. split.
    - intros [R1 R2 R3 R4]. split.
      + intros name b Hin. apply HL in Hin. destruct Hin as [(key & n & ps & I & HF & ->)|[(key & n & I & ->)|(key & nf & nb & s0 & s1 & I & Hs0 & Hs1 & ->)]].
        * destruct (R1 _ _ _ _ Ef I) as (d & E & Hk & Hx). exists (VSpin d). split; [exact E|].
          destruct (@packed_list name key n ps I HF) as [P1 P2]. split.
          -- intros spin c Hc. destruct (P2 _ _ Hc) as (Hs & sub & m & s & -> & Hok & Hz & Hl & He).
             apply Hk in Hs. destruct (dget pystr_eq_dec spin d) as [x|] eqn:Ex; [|congruence]. exists x. split; [reflexivity|].
             destruct (Hx _ _ Ex) as (W & Z & A). split; [exact W|]. split; [exact (spin_sized_fun Z Hz)|]. exact (proj2 (@antisym_iff K key spin sub x Hl He) A).
          -- intros spin Hs. apply Hk in Hs. change (map (fun p : pystr * codec => fst p) ps) with (map fst ps). rewrite P1. exact Hs.
        * destruct (R2 _ _ _ _ Eb I) as (x & E & W & Sx). exists (VArr x). split; [exact E|]. split; [exact W|exact Sx].
        * destruct (R3 _ _ _ _ _ Ec I) as (d & xa & xb & ta & tb & E & Hd & Wa & Wb & Sa & Za & Sb & Zb). exists (VSpin d). split; [exact E|]. split.
          -- intros spin c Hc. rewrite Hd. destruct Hc as [Hc|[Hc|[]]]; apply pair_equal_spec in Hc; destruct Hc as [<- <-].
             ++ destruct (pystr_eq_dec (str "aa") (str "aa")); [|congruence]. exists xa. split; [reflexivity|]. split; [exact Wa|]. change (shp xa = repeat nbos nb ++ s0). rewrite Sa. f_equal. exact (sized_fun Za Hs0).
             ++ destruct (pystr_eq_dec (str "bb") (str "aa")); [discriminate|]. destruct (pystr_eq_dec (str "bb") (str "bb")); [|congruence].
                exists xb. split; [reflexivity|]. split; [exact Wb|]. change (shp xb = repeat nbos nb ++ s1). rewrite Sb. f_equal. exact (sized_fun Zb Hs1).
          -- intros spin Hs. rewrite Hd in Hs. cbn [map fst In]. destruct (pystr_eq_dec spin (str "aa")) as [->|]; [left; reflexivity|].
             destruct (pystr_eq_dec spin (str "bb")) as [->|]; [right; left; reflexivity|congruence].
      + intros name H. destruct (dget pystr_eq_dec name amps) as [x|] eqn:E; [|congruence]. rewrite !in_app_iff. exact (R4 _ _ _ _ _ Ef Eb Ec E).
    - intros [HF HO]. constructor.
      + intros fs' name key n Ef' I. rewrite Ef in Ef'. apply Ok_inj in Ef'. subst fs'.
        destruct (@mapM_total _ _ (u_packed sa sb sizes key) (generate_spin_combinations n false true)) as (ps & E).
        { intros spin Hs. destruct (@entry_packed name key n spin I Hs) as (sub & m & s & E & _). eexists; exact E. }
        apply mapM_F2 in E. destruct (@packed_list name key n ps I E) as [P1 P2].
        destruct (HF name (BSpin ps)) as (t & Et & Hb). { apply HL. left. exists key, n, ps. repeat split; assumption. }
        destruct t as [x|d]; [contradiction Hb|]. destruct Hb as [H1 H2]. exists d. split; [exact Et|].
        assert (HI : forall spin, In spin (generate_spin_combinations n false true) -> exists c, In (spin, c) ps).
        { intros spin Hs. rewrite <- P1 in Hs. apply in_map_iff in Hs. destruct Hs as ([s c] & <- & Hs). exists c. exact Hs. }
        split.
        * intros spin. split; [intros Hs; apply H2 in Hs; rewrite <- P1; exact Hs|]. intros Hs. destruct (HI _ Hs) as (c & Hc). destruct (H1 _ _ Hc) as (x & Ex & _). congruence.
        * intros spin x Ex. assert (Hs : In spin (generate_spin_combinations n false true)). { rewrite <- P1. apply H2. congruence. }
          destruct (HI _ Hs) as (c & Hc). destruct (H1 _ _ Hc) as (x' & Ex' & W & Hfit). rewrite Ex in Ex'. injection Ex' as <-.
          destruct (P2 _ _ Hc) as (_ & sub & m & s & -> & Hok & Hz & Hl & He). destruct Hfit as [<- HA]. split; [exact W|]. split; [exact Hz|]. exact (proj1 (@antisym_iff K key spin sub x Hl He) HA).
      + intros bs' name key n Eb' I. rewrite Eb in Eb'. apply Ok_inj in Eb'. subst bs'.
        destruct (HF name (BArr (Raw (prodn (repeat nbos n)) (repeat nbos n)))) as (t & Et & Hb). { apply HL. right. left. exists key, n. split; [exact I|reflexivity]. }
        destruct t as [x|d]; [|contradiction Hb]. destruct Hb as [W Sx]. exists x. repeat split; assumption.
      + intros cs' name key nf nb Ec' I. rewrite Ec in Ec'. apply Ok_inj in Ec'. subst cs'.
        destruct (@coup_shapes name key nf nb I) as (_ & s0 & s1 & E0 & E1). apply key_shape_spec in E0. apply key_shape_spec in E1.
        destruct (HF name (BSpin [(str "aa", rawof nb s0); (str "bb", rawof nb s1)])) as (t & Et & Hb). { apply HL. right. right. exists key, nf, nb, s0, s1. repeat split; assumption. }
        destruct t as [x|d]; [contradiction Hb|]. destruct Hb as [H1 H2].
        destruct (H1 (str "aa") (rawof nb s0) (or_introl eq_refl)) as (xa & Ea & Wa & Sa).
        destruct (H1 (str "bb") (rawof nb s1) (or_intror (or_introl eq_refl))) as (xb & Eb' & Wb & Sb).
        exists d, xa, xb, s0, s1. split; [exact Et|]. split; [|repeat split; assumption].
        intros spin. destruct (pystr_eq_dec spin (str "aa")) as [->|Na]; [exact Ea|]. destruct (pystr_eq_dec spin (str "bb")) as [->|Nb]; [exact Eb'|].
        destruct (dget pystr_eq_dec spin d) eqn:Ed; [|reflexivity]. exfalso. destruct (H2 spin) as [E|[E|[]]]; [congruence|cbn [fst] in E; congruence..].
      + intros fs' bs' cs' name x Ef' Eb' Ec' E. rewrite Ef in Ef'. rewrite Eb in Eb'. rewrite Ec in Ec'. apply Ok_inj in Ef', Eb', Ec'. subst.
        specialize (HO name). rewrite !in_app_iff in HO. apply HO. congruence.
  Qed.

  Lemma u_some_chunk : (fs <> [] \/ bs <> [] \/ cs <> []) -> some_chunk lay.
  Proof.
    intros H. destruct u_layout_in as [HL _]. destruct H as [H|[H|H]].
    - destruct fs as [|[[name key] n] fs'] eqn:F; [congruence|]. rewrite <- F in *. assert (I : In (name, key, n) fs) by (rewrite F; left; reflexivity).
      destruct (@mapM_total _ _ (u_packed sa sb sizes key) (generate_spin_combinations n false true)) as (ps & E).
      { intros spin Hs. destruct (@entry_packed name key n spin I Hs) as (sub & m & s & E & _). eexists; exact E. }
      apply mapM_F2 in E. exists (name, BSpin ps). split; [apply HL; left; exists key, n, ps; repeat split; assumption|]. cbn [snd].
      intros ->. inversion E as [HE|]. exact (proj2 (spins_nodup n) (eq_sym HE)).
    - destruct bs as [|[[name key] n] bs'] eqn:F; [congruence|]. exists (name, BArr (Raw (prodn (repeat nbos n)) (repeat nbos n))). split; [|exact I]. apply HL. right. left. exists key, n. split; [left; reflexivity|reflexivity].
    - destruct cs as [|[[[name key] nf] nb] cs'] eqn:F; [congruence|]. rewrite <- F in *. assert (I : In (name, key, nf, nb) cs) by (rewrite F; left; reflexivity).
      destruct (@coup_shapes name key nf nb I) as (_ & s0 & s1 & E0 & E1). apply key_shape_spec in E0. apply key_shape_spec in E1.
      exists (name, BSpin [(str "aa", rawof nb s0); (str "bb", rawof nb s1)]). split; [|discriminate]. apply HL. right. right. exists key, nf, nb, s0, s1. repeat split; assumption.
  Qed.
End U.

Lemma u_forward (K : rng) a sa sb nbos w (amps : dict pystr (tval K)) : no_two_torsion K -> w = Wt \/ w = Wl -> frank a <= 1 -> has_amplitudes a false w ->
  u_namespace a sa sb nbos w amps ->
  exists v amps', u_to_vector K a sa sb nbos w amps = Ok v /\ u_from_vector K a sa sb nbos w v = Ok amps' /\ same_namespace amps' amps.
Proof.
  intros HT Hw Hf1 (fs & bs & cs & Ef & Eb & Ec & HNE) HR. destruct (u_sizes_ok sa sb) as (sizes & ES & _).
  destruct (@u_layout_ok a sa sb nbos w Hw Hf1 fs bs cs Ef Eb Ec sizes ES) as (lay & EL).
  apply (@u_namespace_fits a sa sb nbos w Hw Hf1 fs bs cs Ef Eb Ec sizes ES lay EL) in HR. destruct HR as [HF HO].
  destruct (@u_layout_good a sa sb nbos w Hw fs bs cs Ef Eb Ec sizes ES lay EL) as (G1 & G3).
  destruct (@layout_forward K lay amps (or_intror HT) G1 HF) as (vs & E1 & E2 & E3).
  destruct (E3 [] [] []) as (res & E4 & E5). cbn [app length] in E4. rewrite app_nil_r in E4.
  exists (concat (concat vs)), res. unfold u_to_vector, u_from_vector. rewrite EL. cbn [bind]. rewrite E4. cbn [bind fst snd Nat.add].
  rewrite E2, Nat.eqb_refl.
  split; [apply to_vector_ok; [|exact E1]; exact (@u_some_chunk a sa sb nbos w Hw Hf1 fs bs cs Ef Eb Ec sizes ES lay EL HNE)|]. split; [reflexivity|].
  exact (@same_ns_from K lay amps res HO E5).
Qed.

Lemma u_backward (K : rng) a sa sb nbos w : w = Wt \/ w = Wl -> frank a <= 1 -> has_amplitudes a false w ->
  exists size, (forall amps : dict pystr (tval K), no_two_torsion K -> u_namespace a sa sb nbos w amps ->
      forall v, u_to_vector K a sa sb nbos w amps = Ok v -> length v = size) /\
    (forall v, is_ok (u_from_vector K a sa sb nbos w v) = true -> length v = size) /\
    (distinct_names a false w -> forall v, length v = size -> exists amps, u_from_vector K a sa sb nbos w v = Ok amps /\
       u_namespace a sa sb nbos w amps /\ u_to_vector K a sa sb nbos w amps = Ok v).
Proof.
  intros Hw Hf1 (fs & bs & cs & Ef & Eb & Ec & HNE). destruct (u_sizes_ok sa sb) as (sizes & ES & _).
  destruct (@u_layout_ok a sa sb nbos w Hw Hf1 fs bs cs Ef Eb Ec sizes ES) as (lay & EL).
  destruct (@u_layout_good a sa sb nbos w Hw fs bs cs Ef Eb Ec sizes ES lay EL) as (G1 & G3).
  destruct (@u_layout_in a sa sb nbos w fs bs cs Ef Eb Ec sizes ES lay EL) as (HL & HN).
  exists (lsize lay). unfold u_to_vector, u_from_vector. rewrite EL. cbn [bind]. split; [|split].
  - intros amps HT HR v E. apply (@u_namespace_fits a sa sb nbos w Hw Hf1 fs bs cs Ef Eb Ec sizes ES lay EL) in HR. destruct HR as [HF HO].
    destruct (@layout_forward K lay amps (or_intror HT) G1 HF) as (vs & E1 & E2 & E3).
    rewrite (@to_vector_ok K lay amps vs (@u_some_chunk a sa sb nbos w Hw Hf1 fs bs cs Ef Eb Ec sizes ES lay EL HNE) E1) in E. apply Ok_inj in E. subst v. exact E2.
  - intros v H. destruct (read_blocks K lay v 0 []) as [[res j]|] eqn:E; [|discriminate]. cbn [bind fst snd] in H.
    pose proof (@read_blocks_end K lay v _ _ _ _ E) as Ej. cbn in Ej. destruct (Nat.eqb_spec j (length v)); [congruence|discriminate].
  - intros HD v Hv. pose proof (@names_nodup a false w fs bs cs Hw HD Ef Eb Ec) as ND. rewrite <- HN in ND.
    destruct (@layout_backward K lay v G1 G3 ND 0 []) as (res & vs & E1 & E2 & E3 & E4 & E5); [lia|].
    exists res. rewrite E1. cbn [bind fst snd Nat.add]. rewrite Hv, Nat.eqb_refl. split; [reflexivity|]. split.
    + apply (@u_namespace_fits a sa sb nbos w Hw Hf1 fs bs cs Ef Eb Ec sizes ES lay EL). split; [exact E4|]. intros name H.
      destruct (in_dec pystr_eq_dec name (map fst lay)) as [I|N]; [exact I|]. exfalso. apply H. rewrite E5 by exact N. reflexivity.
    + rewrite (@to_vector_ok K lay res vs (@u_some_chunk a sa sb nbos w Hw Hf1 fs bs cs Ef Eb Ec sizes ES lay EL HNE) E2). f_equal. rewrite E3.
      unfold slice. cbn [Nat.add skipn]. rewrite Nat.sub_0_r. apply firstn_all2. lia.
Qed.
(** Coupling of higher fermionic rank is refused. *)
Lemma mapM_refuses {A B} (f : A -> result B) e l : (forall x, In x l -> (exists y, f x = Ok y) \/ f x = Err e) -> (exists x, In x l /\ f x = Err e) -> mapM f l = Err e.
Proof.
  induction l as [|x l IH]; intros H (z & Hz & Ez); [destruct Hz|]. cbn [mapM]. destruct (H x (or_introl eq_refl)) as [(y & E)|E]; rewrite E; [|reflexivity].
  destruct Hz as [->|Hz]; [congruence|]. rewrite IH; [reflexivity|intros; apply H; right; assumption|exists z; split; assumption].
Qed.
Lemma u_refuses (K : rng) a sa sb nbos w fs bs : w = Wt \/ w = Wl -> fermionic_cluster_ranks a false w = Ok fs -> bosonic_cluster_ranks a w = Ok bs ->
  1 < frank a -> 0 < brank a -> (forall v, u_from_vector K a sa sb nbos w v = Err ModelNotImplemented) /\
  (forall amps, u_to_vector K a sa sb nbos w amps = Err ModelNotImplemented).
Proof.
  intros Hw Ef Eb H1 H2. assert (EL : u_layout a sa sb nbos w = Err ModelNotImplemented).
  { destruct (u_sizes_ok sa sb) as (sizes & ES & _). destruct (coupling_wf a Hw) as (cs & Ec & C1 & _).
    unfold u_layout. rewrite ES. cbn [bind]. rewrite Ef. cbn [bind].
    match goal with |- context [mapM ?f fs] => destruct (@mapM_total _ _ f fs) as (bf & E1) end.
    { intros [[name key] n] Hin. destruct (@mapM_total _ _ (u_packed sa sb sizes key) (generate_spin_combinations n false true)) as (ps & E).
      { intros spin Hs. destruct (@entry_packed a sa sb w Hw fs Ef sizes ES name key n spin Hin Hs) as (sub & m & s & E & _). eexists; exact E. }
      rewrite E. cbn. eexists; reflexivity. }
    rewrite E1. cbn [bind]. rewrite Eb. cbn [bind]. rewrite Ec. cbn [bind].
    rewrite (@mapM_refuses _ _ _ ModelNotImplemented cs); [reflexivity| |].
    - intros [[[name key] nf] nb] Hin. destruct (nf =? 1); cbn [negb]; [left|right; reflexivity].
      destruct (@key_shape_total sa (skipn nb key)) as (s0 & E0). { intros c Hc. exact (@coupling_orb _ _ _ _ _ _ _ c Hw Ec Hin Hc). }
      destruct (@key_shape_total sb (skipn nb key)) as (s1 & E1'). { intros c Hc. exact (@coupling_orb _ _ _ _ _ _ _ c Hw Ec Hin Hc). }
      rewrite E0, E1'. cbn. eexists; reflexivity.
    - destruct (C1 2 1) as (n & k & I); [lia..|]. exists (n, k, 2, 1). split; [exact I|reflexivity]. }
  unfold u_from_vector, u_to_vector. rewrite EL. split; reflexivity.
Qed.

(** The documented ansatzes meet the hypotheses. *)
Lemma named_ready n df a rspin w : In n (map fst named_ansatzes) -> from_string n df = Ok a -> w = Wt \/ w = Wl ->
  has_amplitudes a rspin w /\ distinct_names a rspin w.
Proof.
  intros Hn Ea Hw. destruct (@named_distinct n df a rspin w Hn Ea) as (fs & Ef & ND). destruct (coupling_wf a Hw) as (cs & Ec & _).
  split.
  - assert (exists bs, bosonic_cluster_ranks a w = Ok bs /\ fs <> []) as (bs & Eb & HN).
    { unfold from_string in Ea. cbn in Hn. repeat (destruct Hn as [<-|Hn]; [vm_compute in Ea; apply Ok_inj in Ea; subst a; destruct Hw as [->| ->], rspin; vm_compute in Ef; apply Ok_inj in Ef; subst fs; eexists; (split; [vm_compute; reflexivity|discriminate])|]).
      destruct Hn. }
    exists fs, bs, cs. repeat split; try assumption. left; exact HN.
  - split; [intros fs' Ef'; rewrite Ef in Ef'; apply Ok_inj in Ef'; subst; exact ND|]. intros cs' Ec'. eapply coupling_names; [exact Hw| | |exact Ec'];
    (unfold from_string in Ea; cbn in Hn; repeat (destruct Hn as [<-|Hn]; [vm_compute in Ea; apply Ok_inj in Ea; subst a; cbn; lia|]); destruct Hn).
Qed.
