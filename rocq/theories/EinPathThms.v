(** A contraction path computes the defining sum. *)
From Coq Require Import Permutation Ring.
From Verif Require Import Base ListAux Alg ArrModel ArrProofs EinsumModel EinsumSpec EinsumProofs EinsumThms EinsumParse EinsumApi EinPathModel EinPathSpec.
Set Implicit Arguments.

Lemma pop_at_rel {A B} (R : A -> B -> Prop) i l1 l2 x r : Forall2 R l1 l2 -> pop_at i l1 = Ok (x, r) ->
  exists y s, pop_at i l2 = Ok (y, s) /\ R x y /\ Forall2 R r s /\
    Permutation (combine l1 l2) ((x, y) :: combine r s).
Proof.
  intros H. revert i x r. induction H as [|a b l1 l2 Hab H IH]; intros i x r E; [cbn in E; discriminate E|].
  destruct i as [|i]; cbn [pop_at] in E |- *.
  - injection E as <- <-. exists b, l2. split; [reflexivity|]. split; [exact Hab|]. split; [exact H|]. apply Permutation_refl.
  - destruct (pop_at i l1) as [[x' r']|] eqn:E1; [|discriminate]. cbn [bind fst snd] in E. injection E as <- <-.
    destruct (IH i x' r' E1) as (y & s & E2 & Hxy & Hrs & Hp). rewrite E2. exists y, (b :: s).
    split; [reflexivity|]. split; [exact Hxy|]. split; [constructor; assumption|].
    cbn [combine]. apply perm_trans with ((a, b) :: (x', y) :: combine r' s); [apply perm_skip, Hp|apply perm_swap].
Qed.

Lemma pops_rel {A B} (R : A -> B -> Prop) inds : forall l1 l2 p r, Forall2 R l1 l2 -> pops inds l1 = Ok (p, r) ->
  exists q s, pops inds l2 = Ok (q, s) /\ Forall2 R p q /\ Forall2 R r s /\
    Permutation (combine l1 l2) (combine p q ++ combine r s).
Proof.
  induction inds as [|i inds IH]; intros l1 l2 p r H E; cbn [pops] in E |- *.
  - injection E as <- <-. exists [], l2. split; [reflexivity|]. split; [constructor|]. split; [exact H|]. apply Permutation_refl.
  - destruct (pop_at i l1) as [[x l1']|] eqn:E1; [|discriminate]. cbn [bind snd fst] in E.
    destruct (pops inds l1') as [[p' r']|] eqn:E2; [|discriminate]. cbn [bind snd fst] in E. injection E as <- <-.
    destruct (pop_at_rel i H E1) as (y & l2' & F1 & Hxy & Hl & P1). rewrite F1. cbn [bind snd fst].
    destruct (IH l1' l2' p' r' Hl E2) as (q & s & F2 & Hpq & Hrs & P2). rewrite F2. cbn [bind snd fst].
    exists (y :: q), s. split; [reflexivity|]. split; [constructor; assumption|]. split; [exact Hrs|].
    cbn [combine app]. apply perm_trans with ((x, y) :: combine l1' l2'); [exact P1|apply perm_skip, P2].
Qed.

Lemma concat_in {A} (x : A) l : In x (concat l) <-> exists y, In y l /\ In x y.
Proof. apply in_concat. Qed.

Lemma pops_concat inds (l p r : list pystr) c : pops inds l = Ok (p, r) ->
  (In c (concat l) <-> In c (concat p) \/ In c (concat r)).
Proof.
  intros E. destruct (@pops_rel _ _ (fun a b : pystr => a = b) inds l l p r) as (q & s & E2 & Hpq & Hrs & P); [|exact E|].
  { clear. induction l; constructor; auto. }
  rewrite E in E2. injection E2 as <- <-.
  assert (Hd : forall m : list pystr, map fst (combine m m) = m) by (induction m as [|a m IH]; cbn; congruence).
  assert (P' : Permutation l (p ++ r)) by (rewrite <- (Hd l), <- (Hd p), <- (Hd r), <- map_app; apply Permutation_map, P).
  rewrite !concat_in. split.
  - intros (y & Hy & Hc). apply (Permutation_in y P') in Hy. apply in_app_or in Hy as [Hy|Hy]; eauto.
  - intros [(y & Hy & Hc)|(y & Hy & Hc)]; exists y; (split; [|exact Hc]); apply (Permutation_in y (Permutation_sym P')), in_or_app; tauto.
Qed.

Section Paths.
  Variable K : rng.
  Add Ring KringP : (rth K).
  Local Open Scope rng_scope.

  Lemma rprod_perm (l l' : list K) : Permutation l l' -> rprod l = rprod l'.
  Proof.
    induction 1; cbn [rprod fold_right]; [reflexivity| | |congruence].
    - unfold rprod in IHPermutation. rewrite IHPermutation. reflexivity.
    - ring.
  Qed.
  Lemma rprod_app (l l' : list K) : rprod (l ++ l') = rprod l * rprod l'.
  Proof. induction l as [|x l IH]; unfold rprod in *; cbn; [ring|]. rewrite IH. ring. Qed.

  Lemma product_respects inps (args : list (arr K)) : respects K (product_term K inps args).
  Proof. apply einsum_elem_respects. Qed.

  Lemma sum_over_app sz L1 L2 (F : (nat -> nat) -> K) e :
    sum_over K sz (L1 ++ L2) F e = sum_over K sz L1 (sum_over K sz L2 F) e.
  Proof.
    revert e. induction L1 as [|c L1 IH]; intros e; [reflexivity|]. cbn [app sum_over].
    apply rsum_map_ext. intros x _. apply IH.
  Qed.

  (** A factor which does not depend on the summed letters can be moved inside. *)
  Lemma sum_over_mul sz L (G F : (nat -> nat) -> K) e :
    (forall e1 e2, (forall c, ~ In c L -> e1 c = e2 c) -> G e1 = G e2) ->
    G e * sum_over K sz L F e = sum_over K sz L (fun e' => G e' * F e') e.
  Proof.
    revert e. induction L as [|c L IH]; intros e HG; cbn [sum_over]; [reflexivity|].
    rewrite <- rsum_map_mul_l. apply rsum_map_ext. intros x _. rewrite <- IH.
    - f_equal. apply HG. intros y Hy. rewrite upd_other; [reflexivity|]. intros ->. apply Hy. left; reflexivity.
    - intros e1 e2 H. apply HG. intros y Hy. apply H. intros Hi. apply Hy. right; exact Hi.
  Qed.

  (** A sum over letters depends only on the letters of the summand which are not summed. *)
  Lemma sum_over_local sz L (F : (nat -> nat) -> K) S e e' :
    (forall e1 e2, (forall c, In c S -> e1 c = e2 c) -> F e1 = F e2) ->
    (forall c, In c S -> ~ In c L -> e c = e' c) ->
    sum_over K sz L F e = sum_over K sz L F e'.
  Proof.
    revert e e'. induction L as [|c L IH]; intros e e' HF He; cbn [sum_over]; [apply HF; intros c Hc; apply He; tauto|].
    apply rsum_map_ext. intros x _. apply IH; [exact HF|]. intros y Hy Hn. unfold upd. destruct (Nat.eqb_spec y c) as [|Hne]; [reflexivity|].
    apply He; [exact Hy|]. intros [->|Hi]; [apply Hne; reflexivity|exact (Hn Hi)].
  Qed.

  (** Merging the operands of a contraction does not change the defining sum. *)
  Lemma merge_sum sz inps pi ri so outs (args pa ra : list (arr K)) R o :
    shapes_agree sz inps args -> shapes_agree sz pi pa -> shapes_agree sz ri ra ->
    Permutation (combine inps args) (combine pi pa ++ combine ri ra) ->
    (forall c, In c (concat inps) <-> In c (concat pi) \/ In c (concat ri)) ->
    NoDup outs -> incl outs (concat inps) -> NoDup so ->
    (forall c, In c so <-> In c (concat pi) /\ (In c outs \/ In c (concat ri))) ->
    (forall v, inb (map sz so) v -> aget 0 R v = sum_over K sz (summed pi so) (product_term K pi pa) (env_of so v)) ->
    inb (map sz outs) o ->
    sum_over K sz (summed (ri ++ [so]) outs) (product_term K (ri ++ [so]) (ra ++ [R])) (env_of outs o) =
    sum_over K sz (summed inps outs) (product_term K inps args) (env_of outs o).
  Proof.
    intros Sh Sp Sr P Hcat Nout Hinc Nso Hso HR Ho.
    assert (Lp : length pi = length pa) by (apply Forall2_combine in Sp; tauto).
    assert (Lr : length ri = length ra) by (apply Forall2_combine in Sr; tauto).
    set (S1 := summed pi so). set (S2 := summed (ri ++ [so]) outs).
    set (G := fun e => product_term K ri ra e * product_term K pi pa e).
    assert (HGr : respects K G).
    { intros e e' He. unfold G. rewrite (product_respects ri ra e e' He), (product_respects pi pa e e' He). reflexivity. }
    assert (Hprod : forall e, product_term K inps args e = G e).
    { intros e. unfold G, product_term. rewrite (rprod_perm (Permutation_map _ P)), map_app, rprod_app. assert (C : forall x y : K, x * y = y * x) by (intros; ring). apply C. }
    assert (N1 : NoDup S1) by apply summed_nodup.
    assert (N2 : NoDup S2) by apply summed_nodup.
    assert (M1 : forall c, In c S1 <-> In c (concat pi) /\ ~ In c so) by (intros c; apply summed_in).
    assert (M2 : forall c, In c S2 <-> (In c (concat ri) \/ In c so) /\ ~ In c outs).
    { intros c. unfold S2. rewrite summed_in, concat_app, in_app_iff. cbn [concat]. rewrite app_nil_r. reflexivity. }
    assert (N : NoDup (S2 ++ S1)).
    { apply NoDup_app_intro; [exact N2|exact N1|]. intros c H2 H1. apply M1 in H1. apply M2 in H2.
      specialize (Hso c). tauto. }
    assert (PS : Permutation (summed inps outs) (S2 ++ S1)).
    { apply NoDup_Permutation; [apply summed_nodup|exact N|]. intros c. rewrite in_app_iff, summed_in, M1, M2.
      specialize (Hso c). specialize (Hcat c). destruct (in_dec Nat.eq_dec c so); tauto. }
    rewrite (sum_over_perm sz (env_of outs o) (product_respects inps args) (summed_nodup inps outs) PS).
    rewrite sum_over_app.
    apply sum_over_ext; [apply product_respects|apply sum_over_respects, product_respects|exact N2|].
    intros e He Hb.
    destruct (inb_bounded sz Nout Ho) as [Hbo _].
    assert (Hbso : bounded sz e so).
    { intros c Hc. destruct (in_dec Nat.eq_dec c outs) as [Hi|Hi].
      - rewrite He; [apply Hbo, Hi|]. intros H2. apply M2 in H2. tauto.
      - apply Hb. apply M2. tauto. }
    transitivity (product_term K ri ra e * aget 0 R (map e so)).
    { unfold product_term. assert (Ec : combine (ri ++ [so]) (ra ++ [R]) = combine ri ra ++ [(so, R)]).
      { clear -Lr. revert ra Lr. induction ri as [|a l IH]; intros [|b m] HL; cbn in *; try discriminate; [reflexivity|]. f_equal. apply IH. congruence. }
      rewrite Ec, map_app, rprod_app. cbn [map fst snd]. unfold rprod at 2. cbn [fold_right]. assert (C : forall x y : K, x * (y * 1) = x * y) by (intros; ring). apply C. }
    rewrite HR by (apply bounded_inb, Hbso).
    rewrite (@sum_over_local sz (summed pi so) (product_term K pi pa) (concat pi) (env_of so (map e so)) e).
    - rewrite sum_over_mul.
      + apply sum_over_ext; [exact HGr|apply product_respects|exact N1|]. intros e' _ _. symmetry. apply Hprod.
      + intros e1 e2 H12. apply (@product_local K ri ra Lr). intros c Hc. apply H12. intros H1. apply M1 in H1.
        specialize (Hso c). tauto.
    - intros e1 e2. apply product_local, Lp.
    - intros c Hc Hn. apply env_of_eq. destruct (in_dec Nat.eq_dec c so) as [Hi|Hi]; [exact Hi|]. exfalso. apply Hn, M1. tauto.
  Qed.

  Lemma scale_1 (r : arr K) : scale K 1 r = r.
  Proof.
    unfold scale. destruct r as [s d]. cbn [shp dat]. f_equal. rewrite <- (map_id d) at 2. apply map_ext. intros x. ring.
  Qed.

  Lemma contract_step_ok sz method inps outs (args : list (arr K)) : shapes_agree sz inps args ->
    NoDup outs -> incl outs (concat inps) ->
    contract_step K method inps outs args = np_einsum K inps outs args.
  Proof.
    intros Sh N I. destruct (np_total K Sh N I) as (r & Er & _).
    destruct args as [|a [|b [|c args]]]; inversion Sh as [|ia ? inps' ? Ha Sh']; subst; [reflexivity| | |].
    - inversion Sh'; subst. cbn [contract_step]. rewrite Er.
      apply (eq_trans (f_equal (fun x => bind x (fun r => accumulate K 0 None (scale K 1 r))) Er)). cbn [bind accumulate]. rewrite scale_1. reflexivity.
    - inversion Sh' as [|ib ? ? ? Hb Sh'']; subst. inversion Sh''; subst. cbn [contract_step].
      assert (Eb : contract_backend K ia ib outs a b 1 0 None = Ok r)
        by (apply (eq_trans (f_equal (fun x => bind x (fun r => accumulate K 0 None (scale K 1 r))) Er)); cbn [bind accumulate]; rewrite scale_1; reflexivity).
      rewrite Er. destruct method as [n|]; [|exact Eb].
      pose proof (@ttgt_correct K n false ia ib outs a b 1 0 None (proj1 Ha) (proj1 Hb)) as HT. rewrite Eb in HT.
      apply HT; [discriminate|]. intros o r' E; discriminate.
    - inversion Sh' as [|ib ? ? ? Hb Sh'']; subst. inversion Sh'' as [|ic ? ? ? Hc Sh''']; subst. reflexivity.
  Qed.

  Theorem run_path_ok sz outs inps path : valid_path outs inps path ->
    forall method (args : list (arr K)) res, shapes_agree sz inps args -> NoDup outs -> incl outs (concat inps) ->
    run_path K method true path args res = np_einsum K inps outs args.
  Proof.
    induction 1 as [inps p E Eo|inps p rest path E Nso Hso V IH Hne]; intros method args res Sh N I.
    - cbn [run_path]. unfold shapes_agree in Sh.
      destruct (pops_rel (c_inds p) Sh E) as (q & s & F & Spq & Srs & P). inversion Srs; subst s. rewrite F. cbn [bind negb fst snd].
      assert (I' : incl outs (concat (c_inps p))).
      { intros c Hc. apply I in Hc. apply (pops_concat (c_inds p) inps c E) in Hc. destruct Hc as [Hc|[]]. exact Hc. }
      rewrite Eo. rewrite (contract_step_ok method Spq N I').
      destruct (np_total K Spq N I') as (r & Er & Wr & Sr & Gr). destruct (np_total K Sh N I) as (r' & Er' & Wr' & Sr' & Gr').
      rewrite Er, Er'. cbn [bind]. f_equal. apply (@arr_ext K 0); try assumption; [congruence|].
      rewrite Sr. intros o Ho. rewrite Gr, Gr' by exact Ho.
      cbn [combine] in P. rewrite app_nil_r in P.
      assert (Hp : forall e, product_term K (c_inps p) q e = product_term K inps args e)
        by (intros e; unfold product_term; symmetry; apply rprod_perm, Permutation_map, P).
      assert (PS : Permutation (summed (c_inps p) outs) (summed inps outs)).
      { apply NoDup_Permutation; try apply summed_nodup. intros c. rewrite !summed_in, (pops_concat (c_inds p) inps c E).
        cbn [concat]. cbn [In]. tauto. }
      rewrite (sum_over_perm sz (env_of outs o) (product_respects (c_inps p) q) (summed_nodup _ _) PS).
      apply sum_over_ext; [apply product_respects|apply product_respects|apply summed_nodup|]. intros e _ _. apply Hp.
    - cbn [run_path]. unfold shapes_agree in Sh.
      destruct (pops_rel (c_inds p) Sh E) as (q & s & F & Spq & Srs & P). rewrite F. cbn [bind negb fst snd].
      assert (I' : incl (c_out p) (concat (c_inps p))) by (intros c Hc; apply Hso in Hc; tauto).
      rewrite (contract_step_ok method Spq Nso I').
      destruct (np_total K Spq Nso I') as (R & ER & WR & SR & GR). rewrite ER. cbn [bind].
      assert (Hcat := fun c => pops_concat (c_inds p) inps c E).
      assert (Sh2 : shapes_agree sz (rest ++ [c_out p]) (s ++ [R])).
      { apply Forall2_app; [exact Srs|]. constructor; [split; assumption|constructor]. }
      assert (I2 : incl outs (concat (rest ++ [c_out p]))).
      { intros c Hc. rewrite concat_app, in_app_iff. cbn [concat]. rewrite app_nil_r.
        pose proof (I c Hc) as Hi. apply Hcat in Hi. rewrite Hso. tauto. }
      rewrite (IH method (s ++ [R]) (Some R) Sh2 N I2).
      destruct (np_total K Sh2 N I2) as (r & Er & Wr & Sr & Gr). destruct (np_total K Sh N I) as (r' & Er' & Wr' & Sr' & Gr').
      rewrite Er, Er'. f_equal. apply (@arr_ext K 0); try assumption; [congruence|].
      rewrite Sr. intros o Ho. rewrite Gr, Gr' by exact Ho.
      apply merge_sum with (pi := c_inps p) (pa := q); assumption.
  Qed.
End Paths.
