(** The transpose-transpose-GEMM-transpose contraction equals the defining sum. *)
From Coq Require Import Sorted Ring.
From Verif Require Import Base ListAux Alg ArrModel ArrProofs EinsumModel EinsumProofs GroupProofs SpinProofs.
Set Implicit Arguments.

Lemma dedup_length_nodup l : length l = length (dedup l) -> NoDup l.
Proof.
  intros H. apply (NoDup_incl_NoDup (dedup_nodup l)); [lia|]. intros x Hx. rewrite dedup_in in Hx. exact Hx.
Qed.

Lemma count_nodup l : (forall c, In c l -> count l c = 1) -> NoDup l.
Proof.
  intros H. apply (NoDup_count_occ Nat.eq_dec). intros x.
  destruct (in_dec Nat.eq_dec x l) as [Hi|Hi]; [unfold count in H; rewrite H by exact Hi; lia|].
  apply (count_occ_not_In Nat.eq_dec) in Hi. lia.
Qed.

Lemma nodup_count l c : NoDup l -> count l c = if memb c l then 1 else 0.
Proof.
  intros H. unfold count. destruct (memb c l) eqn:E.
  - apply memb_in in E. apply (NoDup_count_occ' Nat.eq_dec); assumption.
  - apply memb_false in E. apply count_occ_not_In, E.
Qed.

Lemma prodn_zero_bounded sz L e : prodn (map sz L) = 0 -> bounded sz e L -> False.
Proof. intros H Hb. apply bounded_inb in Hb. apply ravel_lt in Hb. lia. Qed.

Lemma filter_idem {A} (g : A -> bool) l : filter g (filter g l) = filter g l.
Proof.
  induction l as [|y l IH]; cbn [filter]; [reflexivity|].
  destruct (g y) eqn:Eg; cbn [filter]; [rewrite Eg|]; rewrite IH; reflexivity.
Qed.

Section Thms.
  Variable K : rng.
  Add Ring Kring2 : (rth K).
  Local Open Scope rng_scope.

  Lemma accumulate_spec (alpha beta : K) (out : option (arr K)) (r : arr K) : wf r ->
    (forall o, out = Some o -> wf o /\ shp o = shp r) ->
    exists c, accumulate K beta out (scale K alpha r) = Ok c /\ shp c = shp r /\ wf c /\
      (forall idx, inb (shp r) idx ->
         aget 0 c idx = aget 0 r idx * alpha + match out with None => 0 | Some o => aget 0 o idx * beta end).
  Proof.
    intros Hw Ho. destruct out as [o|]; cbn [accumulate].
    - destruct (Ho o eq_refl) as [Hwo Hs]. unfold add_arr. cbn [scale shp].
      destruct (list_eq_dec Nat.eq_dec (shp r) (shp o)) as [E|]; [|congruence]. eexists; split; [reflexivity|].
      cbn [shp]. split; [reflexivity|]. split.
      + unfold wf in *. cbn [shp dat scale]. rewrite map_length, combine_length, !map_length, Hw, Hwo, Hs. apply Nat.min_id.
      + intros idx Hi. unfold aget. cbn [shp dat scale]. rewrite <- E.
        pose proof (ravel_lt Hi) as Hlt. unfold wf in Hw, Hwo.
        rewrite nth_map_lt with (d' := (0 : K, 0 : K)) by (rewrite combine_length, !map_length, Hw, Hwo, Hs; lia).
        rewrite combine_nth by (rewrite !map_length, Hw, Hwo, Hs; reflexivity). cbn [fst snd].
        rewrite nth_map_lt with (d' := 0 : K) by (rewrite Hw; lia).
        rewrite nth_map_lt with (d' := 0 : K) by (rewrite Hwo, Hs; lia). reflexivity.
    - eexists; split; [reflexivity|]. split; [reflexivity|]. split.
      + unfold wf in *. cbn [scale dat shp]. rewrite map_length. exact Hw.
      + intros idx Hi. unfold aget. cbn [shp dat scale]. pose proof (ravel_lt Hi) as Hlt. unfold wf in Hw.
        rewrite nth_map_lt with (d' := 0 : K) by (rewrite Hw; lia). ring.
  Qed.

  Lemma sum_over_0 sz L e : sum_over K sz L (fun _ => 0) e = 0.
  Proof. revert e; induction L as [|c L IH]; intros e; cbn [sum_over]; [reflexivity|]. apply rsum_map_0. intros x _. apply IH. Qed.

  (** The matrix product path. *)
  Lemma gemm_path (ia ib outs FA FB ds : list nat) sz (a b : arr K) (alpha beta : K) (out : option (arr K)) :
    NoDup ia -> NoDup ib -> NoDup outs -> NoDup ds ->
    Permutation ia (FA ++ ds) -> Permutation ib (ds ++ FB) -> Permutation (FA ++ FB) outs ->
    (forall c, In c FA -> ~ In c ds) -> (forall c, In c FB -> ~ In c ds) ->
    wf a -> wf b -> shp a = map sz ia -> shp b = map sz ib ->
    length (dat a) <> 0%nat -> length (dat b) <> 0%nat ->
    (forall o, out = Some o -> wf o /\ shp o = map sz outs) ->
    exists c,
      (at1 <- transpose 0 a (map (pos_in ia) (FA ++ ds)) ;;
       bt1 <- transpose 0 b (map (pos_in ib) (ds ++ FB)) ;;
       at2 <- reshape at1 [length (dat at1) / prodn (map sz ds); prodn (map sz ds)]%nat ;;
       bt2 <- reshape bt1 [prodn (map sz ds); length (dat bt1) / prodn (map sz ds)]%nat ;;
       out2 <- match out with
               | None => Ok None
               | Some o =>
                   ot <- transpose 0 o (map (pos_in outs) (FA ++ FB)) ;;
                   r <- reshape ot [nth 0 (shp at2) 0; nth 1 (shp bt2) 0]%nat ;; Ok (Some r)
               end ;;
       ct <- reshape (gemm K alpha at2 bt2 beta out2) (map sz (FA ++ FB)) ;;
       transpose 0 ct (map (pos_in (FA ++ FB)) outs))%py = Ok c /\
      shp c = map sz outs /\ wf c /\
      (forall e, bounded sz e outs ->
         aget 0 c (map e outs) =
         sum_over K sz ds (fun e' => aget 0 a (map e' ia) * aget 0 b (map e' ib)) e * alpha +
         match out with None => 0 | Some o => aget 0 o (map e outs) * beta end).
  Proof.
    intros Nia Nib Nout Nds Pa Pb Pc HFA HFB Wa Wb Sa Sb Za Zb Ho.
    destruct (transpose_labels K a sz Nia Pa Sa) as (at1 & E1 & Sat & Wat & Gat). rewrite E1. cbn [bind].
    destruct (transpose_labels K b sz Nib Pb Sb) as (bt1 & E2 & Sbt & Wbt & Gbt). rewrite E2. cbn [bind].
    set (inner := prodn (map sz ds)).
    assert (La : length (dat at1) = (prodn (map sz FA) * inner)%nat)
      by (rewrite Wat, Sat, map_app, prodn_app; reflexivity).
    assert (Lb : length (dat bt1) = (inner * prodn (map sz FB))%nat)
      by (rewrite Wbt, Sbt, map_app, prodn_app; reflexivity).
    assert (Hin : inner <> 0%nat).
    { intros E. apply Za. rewrite Wa, Sa.
      assert (Hpp : forall l l', Permutation l l' -> prodn l = prodn l').
      { intros l l' H. unfold prodn. induction H; cbn; lia. }
      rewrite (Hpp _ _ (Permutation_map sz Pa)), map_app, prodn_app. fold inner. rewrite E. apply Nat.mul_0_r. }
    assert (Da : (length (dat at1) / inner = prodn (map sz FA))%nat) by (rewrite La; apply Nat.div_mul, Hin).
    assert (Db : (length (dat bt1) / inner = prodn (map sz FB))%nat)
      by (rewrite Lb, Nat.mul_comm; apply Nat.div_mul, Hin).
    rewrite Da, Db.
    set (M := prodn (map sz FA)). set (N := prodn (map sz FB)). fold M in La. fold N in Lb.
    unfold reshape at 1.
    replace (prodn [M; inner]) with (M * inner)%nat by (cbn; lia).
    rewrite <- Wat, La, Nat.eqb_refl. cbn [bind].
    unfold reshape at 1.
    replace (prodn [inner; N]) with (inner * N)%nat by (cbn; lia).
    rewrite <- Wbt, Lb, Nat.eqb_refl. cbn [bind shp nth].
    (* elements of the two matrices *)
    assert (Ga : forall e l, bounded sz e FA -> inb (map sz ds) l ->
       aget 0 (mkarr [M; inner] (dat at1)) [ravel (map sz FA) (map e FA); ravel (map sz ds) l]
       = aget 0 a (map (setl e ds l) ia)).
    { intros e l He Hl. destruct (inb_bounded sz Nds Hl) as [Hb1 Hb2].
      assert (Hext : bounded sz (setl e ds l) ia).
      { intros c Hc. apply (Permutation_in c Pa) in Hc. apply in_app_or in Hc as [Hc|Hc].
        - rewrite setl_notin by (apply HFA, Hc). apply He, Hc.
        - rewrite setl_in by exact Hc. apply Hb1, Hc. }
      rewrite <- (Gat _ Hext). unfold aget. cbn [dat shp ravel]. f_equal. rewrite Sat, !map_app.
      assert (X1 : map (setl e ds l) FA = map e FA)
        by (apply map_ext_in; intros c Hc; apply setl_notin, HFA, Hc).
      assert (X2 : map (setl e ds l) ds = l)
        by (transitivity (map (env_of ds l) ds); [apply map_ext_in; intros c Hc; apply setl_in, Hc|exact Hb2]).
      rewrite X1, X2. rewrite ravel_app by (apply bounded_inb, He). fold inner. cbn. lia. }
    assert (Gb : forall e l, bounded sz e FB -> inb (map sz ds) l ->
       aget 0 (mkarr [inner; N] (dat bt1)) [ravel (map sz ds) l; ravel (map sz FB) (map e FB)]
       = aget 0 b (map (setl e ds l) ib)).
    { intros e l He Hl. destruct (inb_bounded sz Nds Hl) as [Hb1 Hb2].
      assert (Hext : bounded sz (setl e ds l) ib).
      { intros c Hc. apply (Permutation_in c Pb) in Hc. apply in_app_or in Hc as [Hc|Hc].
        - rewrite setl_in by exact Hc. apply Hb1, Hc.
        - rewrite setl_notin by (apply HFB, Hc). apply He, Hc. }
      rewrite <- (Gbt _ Hext). unfold aget. cbn [dat shp ravel]. f_equal. rewrite Sbt, !map_app.
      assert (X1 : map (setl e ds l) FB = map e FB)
        by (apply map_ext_in; intros c Hc; apply setl_notin, HFB, Hc).
      assert (X2 : map (setl e ds l) ds = l)
        by (transitivity (map (env_of ds l) ds); [apply map_ext_in; intros c Hc; apply setl_in, Hc|exact Hb2]).
      rewrite X1, X2. rewrite ravel_app by exact Hl. fold N. cbn. lia. }
    set (at2 := mkarr [M; inner] (dat at1)) in *. set (bt2 := mkarr [inner; N] (dat bt1)) in *.
    (* the output buffer *)
    assert (Hout2 : exists out2,
       (match out with
        | None => Ok None
        | Some o => ot <- transpose 0 o (map (pos_in outs) (FA ++ FB)) ;;
                    r <- reshape ot [M; N] ;; Ok (Some r) end)%py = Ok out2 /\
       (forall e, bounded sz e outs ->
          match out2 with None => 0 | Some r => beta * aget 0 r [ravel (map sz FA) (map e FA); ravel (map sz FB) (map e FB)] end
          = match out with None => 0 | Some o => aget 0 o (map e outs) * beta end)).
    { destruct out as [o|]; [|exists None; split; reflexivity].
      destruct (Ho o eq_refl) as [Wo So].
      destruct (transpose_labels K o sz Nout (Permutation_sym Pc) So) as (ot & E3 & Sot & Wot & Got).
      rewrite E3. cbn [bind]. unfold reshape.
      replace (prodn [M; N]) with (M * N)%nat by (cbn; lia).
      rewrite Sot, map_app, prodn_app. fold M N. rewrite Nat.eqb_refl. cbn [bind].
      eexists; split; [reflexivity|]. intros e He. cbn beta iota.
      rewrite <- (Got e He).
      assert (HeFA : bounded sz e FA) by (intros c Hc; apply He, (Permutation_in c Pc), in_or_app; left; exact Hc).
      assert (HH : aget 0 (mkarr [M; N] (dat ot)) [ravel (map sz FA) (map e FA); ravel (map sz FB) (map e FB)]
                   = aget 0 ot (map e (FA ++ FB))).
      { unfold aget. cbn [dat shp ravel]. f_equal. rewrite Sot, !map_app, ravel_app by (apply bounded_inb, HeFA).
        fold N. cbn. lia. }
      rewrite HH. ring. }
    destruct Hout2 as (out2 & Eo2 & Go2).
    cbn [shp nth at2 bt2]. fold at2 bt2. rewrite Eo2. cbn [bind].
    set (g := gemm K alpha at2 bt2 beta out2).
    assert (Wg : wf g) by apply tab_wf.
    assert (Sg : shp g = [M; N]) by reflexivity.
    unfold reshape. rewrite Sg, map_app, prodn_app. fold M N.
    replace (prodn [M; N]) with (M * N)%nat by (cbn; lia). rewrite Nat.eqb_refl. cbn [bind].
    assert (NF : NoDup (FA ++ FB)) by (apply (Permutation_NoDup (Permutation_sym Pc) Nout)).
    rewrite <- map_app.
    destruct (transpose_labels K (mkarr (map sz (FA ++ FB)) (dat g)) sz NF Pc eq_refl) as (c & Ec & Sc & Wc & Gc).
    exists c. split; [exact Ec|]. split; [exact Sc|]. split; [exact Wc|].
    intros e He.
    assert (HeF : bounded sz e (FA ++ FB)) by (intros x Hx; apply He, (Permutation_in x Pc Hx)).
    assert (HeFA : bounded sz e FA) by (intros x Hx; apply HeF, in_or_app; left; exact Hx).
    assert (HeFB : bounded sz e FB) by (intros x Hx; apply HeF, in_or_app; right; exact Hx).
    rewrite (Gc e HeF).
    assert (HH : aget 0 (mkarr (map sz (FA ++ FB)) (dat g)) (map e (FA ++ FB))
                 = aget 0 g [ravel (map sz FA) (map e FA); ravel (map sz FB) (map e FB)]).
    { unfold aget. cbn [dat shp]. rewrite Sg. cbn [ravel].
      rewrite !map_app, ravel_app by (apply bounded_inb, HeFA). fold N. f_equal. cbn. lia. }
    rewrite HH.
    unfold g, gemm. cbn [shp nth at2 bt2]. fold at2 bt2.
    rewrite (@aget_tab K 0).
    2:{ constructor; [apply ravel_lt, bounded_inb, HeFA|]. constructor; [apply ravel_lt, bounded_inb, HeFB|constructor]. }
    cbn [nth]. rewrite (Go2 e He).
    rewrite sum_over_all; [|intros e1 e2 H12; f_equal; f_equal; apply map_ext, H12|exact Nds].
    assert (HS : rsum (map (fun l => aget 0 at2 [ravel (map sz FA) (map e FA); l] *
                                     aget 0 bt2 [l; ravel (map sz FB) (map e FB)]) (seq 0 inner))
               = rsum (map (fun v => aget 0 a (map (setl e ds v) ia) * aget 0 b (map (setl e ds v) ib)) (all_idx (map sz ds)))).
    { unfold inner at 1. rewrite <- all_idx_ravel, map_map. apply rsum_map_ext. intros v Hv. apply all_idx_in in Hv.
      rewrite (Ga e v HeFA Hv), (Gb e v HeFB Hv). reflexivity. }
    rewrite HS. ring.
  Qed.

  Lemma einsum_two ia ib (a b : arr K) e : einsum_elem K [ia; ib] [a; b] e = aget 0 a (map e ia) * aget 0 b (map e ib).
  Proof. unfold einsum_elem, rprod. cbn. ring. Qed.

  (** The defining sum for two operands whose letters are all distinct except those contracted. *)
  Lemma np_einsum_ok inps outs (args : list (arr K)) r : np_einsum K inps outs args = Ok r ->
    exists rg, ranges_of K inps args = Ok rg /\ ndims_ok K inps args = true /\ NoDup outs /\ incl outs (concat inps) /\
      r = tab (map (extent rg) outs)
            (fun o => sum_over K (extent rg) (summed inps outs) (einsum_elem K inps args) (env_of outs o)).
  Proof.
    unfold np_einsum. destruct (ndims_ok K inps args); [|discriminate]. cbn [negb].
    destruct (ranges_of K inps args) as [rg|]; [|discriminate]. cbn [bind].
    destruct (forallb _ outs && forallb _ outs)%bool eqn:E; [|discriminate]. intros H; injection H as <-.
    apply andb_true_iff in E as [E1 E2]. rewrite forallb_forall in E1, E2. exists rg.
    repeat split.
    - apply count_nodup. intros c Hc. apply Nat.eqb_eq, E1, Hc.
    - intros c Hc. apply memb_in, E2, Hc.
  Qed.

  Lemma summed_nodup inps outs : NoDup (summed inps outs).
  Proof. apply NoDup_filter, dedup_nodup. Qed.
  Lemma summed_in inps outs c : In c (summed inps outs) <-> In c (concat inps) /\ ~ In c outs.
  Proof. unfold summed. rewrite filter_In, dedup_in, negb_true_iff, memb_false. reflexivity. Qed.

  Theorem ttgt_correct min_size b1 ia ib outs (a b : arr K) (alpha beta : K) (out : option (arr K)) :
    wf a -> wf b -> (b1 = true -> beta = 1) ->
    (forall o r, out = Some o -> np_einsum K [ia; ib] outs [a; b] = Ok r -> wf o /\ shp o = shp r) ->
    match contract_backend K ia ib outs a b alpha beta out with
    | Ok r => contract_ttgt K min_size b1 ia ib outs a b alpha beta out = Ok r
    | Err _ => exists e, contract_ttgt K min_size b1 ia ib outs a b alpha beta out = Err e
    end.
  Proof.
    intros Wa Wb Hb1 Ho.
    assert (Hfb : match contract_backend K ia ib outs a b alpha beta out with
                  | Ok r => contract_backend K ia ib outs a b alpha beta out = Ok r
                  | Err _ => exists e, contract_backend K ia ib outs a b alpha beta out = Err e end)
      by (destruct (contract_backend K ia ib outs a b alpha beta out); eauto).
    unfold contract_ttgt.
    destruct (_ <? min_size)%nat; [exact Hfb|].
    destruct (existsb _ (dedup (ia ++ ib ++ outs))) eqn:E2; [exact Hfb|].
    destruct (forallb (fun c => count outs c =? 1)%nat outs && forallb (fun c => memb c (ia ++ ib)) outs)%bool eqn:Eo.
    2:{ cbn [negb]. destruct (contract_backend K ia ib outs a b alpha beta out) as [r|] eqn:Eb; [|eauto].
        exfalso. unfold contract_backend in Eb.
        destruct (np_einsum K [ia; ib] outs [a; b]) as [r'|] eqn:En; [|discriminate].
        apply np_einsum_ok in En as (rg & _ & _ & Hnd & Hinc & _).
        apply not_true_iff_false in Eo. apply Eo. apply andb_true_iff. rewrite !forallb_forall. split.
        - intros c Hc. rewrite nodup_count by exact Hnd. apply memb_in in Hc. rewrite Hc. reflexivity.
        - intros c Hc. apply memb_in. apply Hinc in Hc. cbn [concat] in Hc. rewrite app_nil_r in Hc. exact Hc. }
    cbn [negb].
    destruct (ndims_ok K [ia; ib] [a; b]) eqn:En.
    2:{ cbn [negb]. unfold contract_backend, np_einsum. rewrite En. cbn. eauto. }
    cbn [negb].
    destruct (existsb _ [ia; ib]) eqn:Et; [exact Hfb|].
    set (dummy := filter (fun c => memb c ib) (dedup ia)).
    destruct ((length dummy =? 0)%nat || _ || _)%bool eqn:Ed; [exact Hfb|]. clear Hfb.
    destruct (ranges_of K [ia; ib] [a; b]) as [rg|er] eqn:Er.
    2:{ cbn [bind]. unfold contract_backend, np_einsum. rewrite En, Er. cbn. eauto. }
    cbn [bind].
    (* facts *)
    assert (Nia : NoDup ia /\ NoDup ib).
    { cbn [existsb] in Et. rewrite orb_false_r in Et. apply orb_false_iff in Et as [Et1 Et2].
      apply negb_false_iff, Nat.eqb_eq in Et1, Et2. split; apply dedup_length_nodup; assumption. }
    destruct Nia as [Nia Nib].
    assert (Eo' := Eo). apply andb_true_iff in Eo' as [Eo1 Eo2]. rewrite forallb_forall in Eo1, Eo2.
    assert (Nout : NoDup outs) by (apply count_nodup; intros c Hc; apply Nat.eqb_eq, Eo1, Hc).
    assert (H2 : forall c, In c (ia ++ ib ++ outs) ->
              ((if memb c ia then 1 else 0) + (if memb c ib then 1 else 0) + (if memb c outs then 1 else 0) = 2)%nat).
    { intros c Hc. apply not_true_iff_false in E2. rewrite existsb_exists in E2.
      destruct (Nat.eq_dec (count (ia ++ ib ++ outs) c) 2) as [E|E].
      - unfold count in E. rewrite !count_occ_app in E. fold (count ia c) (count ib c) (count outs c) in E.
        rewrite !nodup_count in E by assumption. lia.
      - exfalso. apply E2. exists c. split; [apply dedup_in, Hc|]. apply negb_true_iff, Nat.eqb_neq, E. }
    set (ds := sorted_py dummy).
    assert (Nds : NoDup ds) by (apply (Permutation_NoDup (sorted_py_perm dummy)), NoDup_filter, dedup_nodup).
    assert (Idum : forall c, In c dummy <-> In c ia /\ In c ib)
      by (intros c; unfold dummy; rewrite filter_In, dedup_in, memb_in; reflexivity).
    assert (Ids : forall c, In c ds <-> In c ia /\ In c ib).
    { intros c. rewrite <- Idum. split; intros H; [apply (Permutation_in c (Permutation_sym (sorted_py_perm dummy)) H)|apply (Permutation_in c (sorted_py_perm dummy) H)]. }
    assert (Imem : forall c, memb c dummy = memb c ds).
    { intros c. apply eq_true_iff_eq. rewrite !memb_in, Idum, Ids. reflexivity. }
    assert (Hre : reorder ds 0 ia ib = (without ds ia ++ ds, ds ++ without ds ib)).
    { apply (@reorder_spec ds 0 ia [] ib); try assumption; try reflexivity; intros c Hc; try (apply Ids, Hc). intros []. }
    rewrite Hre.
    set (FA := without ds ia). set (FB := without ds ib).
    assert (Hct : take_until (fun c => memb c dummy) (FA ++ ds) ++ filter (fun c => negb (memb c dummy)) (ds ++ FB) = FA ++ FB).
    { f_equal.
      - apply take_until_app; intros x Hx; rewrite Imem.
        + apply memb_false. apply without_in in Hx. tauto.
        + apply memb_in, Hx.
      - rewrite filter_app.
        assert (X1 : filter (fun c => negb (memb c dummy)) ds = []).
        { assert (X : forall l, incl l ds -> filter (fun c => negb (memb c dummy)) l = []).
          { induction l as [|y l IH]; intros Hl; cbn [filter]; [reflexivity|].
            rewrite Imem. assert (memb y ds = true) as -> by (apply memb_in, Hl; left; reflexivity). cbn [negb].
            apply IH. intros z Hz; apply Hl; right; exact Hz. }
          apply X, incl_refl. }
        rewrite X1. cbn [app]. unfold FB, without.
        rewrite (filter_ext _ (fun c => negb (memb c ds)) (fun c => f_equal negb (Imem c))).
        apply filter_idem. }
    rewrite Hct. clear Hct Hre.
    set (sz := extent rg).
    assert (Sab : shp a = map sz ia /\ shp b = map sz ib).
    { split; [apply (ranges_shapes K [ia; ib] [a; b] En Er (ia, a)); left; reflexivity|].
      apply (ranges_shapes K [ia; ib] [a; b] En Er (ib, b)); right; left; reflexivity. }
    destruct Sab as [Sa Sb].
    assert (IFA : forall c, In c FA <-> In c ia /\ ~ In c ib).
    { intros c. unfold FA. rewrite without_in, Ids. tauto. }
    assert (IFB : forall c, In c FB <-> In c ib /\ ~ In c ia).
    { intros c. unfold FB. rewrite without_in, Ids. tauto. }
    assert (Iout : forall c, In c outs <-> (In c ia /\ ~ In c ib) \/ (In c ib /\ ~ In c ia)).
    { intros c. specialize (H2 c). rewrite !in_app_iff in H2. specialize (Eo2 c).
      rewrite memb_in, in_app_iff in Eo2.
      pose proof (memb_in c ia) as M1. pose proof (memb_in c ib) as M2. pose proof (memb_in c outs) as M3.
      destruct (memb c ia), (memb c ib), (memb c outs); cbn in H2; intuition (try discriminate; try lia). }
    assert (Pc : Permutation (FA ++ FB) outs).
    { apply NoDup_Permutation; [|exact Nout|].
      - apply NoDup_app_intro; [apply NoDup_filter, Nia|apply NoDup_filter, Nib|].
        intros x Hx Hx'. apply IFA in Hx. apply IFB in Hx'. tauto.
      - intros x. rewrite in_app_iff, IFA, IFB, Iout. reflexivity. }
    assert (Pa : Permutation ia (FA ++ ds)) by (apply without_perm; try assumption; intros c Hc; apply Ids, Hc).
    assert (Pb : Permutation ib (ds ++ FB)).
    { eapply Permutation_trans; [apply (@without_perm ds ib); try assumption; intros c Hc; apply Ids, Hc|apply Permutation_app_comm]. }
    assert (Psum : Permutation (summed [ia; ib] outs) ds).
    { apply NoDup_Permutation; [apply summed_nodup|exact Nds|]. intros c. rewrite summed_in, Ids, Iout.
      cbn [concat]. rewrite app_nil_r, in_app_iff.
      destruct (in_dec Nat.eq_dec c ia), (in_dec Nat.eq_dec c ib); tauto. }
    (* the backend's value *)
    set (F := fun e' : nat -> nat => aget 0 a (map e' ia) * aget 0 b (map e' ib)).
    assert (RF : respects K F) by (intros e1 e2 H12; unfold F; f_equal; f_equal; apply map_ext, H12).
    set (res := tab (map sz outs) (fun o => sum_over K sz (summed [ia; ib] outs) (einsum_elem K [ia; ib] [a; b]) (env_of outs o))).
    assert (Hnp : np_einsum K [ia; ib] outs [a; b] = Ok res).
    { unfold np_einsum. rewrite En, Er. cbn [negb bind concat]. rewrite app_nil_r, Eo. reflexivity. }
    assert (Hval : forall e, bounded sz e outs -> aget 0 res (map e outs) = sum_over K sz ds F e).
    { intros e He. unfold res. rewrite (@aget_tab K 0) by (apply bounded_inb, He).
      rewrite (sum_over_perm sz (env_of outs (map e outs)) (@einsum_elem_respects K [ia; ib] [a; b])
                 (summed_nodup [ia; ib] outs) Psum).
      rewrite !sum_over_all by (try apply einsum_elem_respects; try exact RF; exact Nds).
      apply rsum_map_ext. intros v Hv. rewrite einsum_two. unfold F.
      assert (X : forall c, In c ia \/ In c ib -> setl (env_of outs (map e outs)) ds v c = setl e ds v c).
      { intros c Hc. destruct (in_dec Nat.eq_dec c ds) as [Hd|Hd]; [rewrite !setl_in by exact Hd; reflexivity|].
        rewrite !setl_notin by exact Hd. apply env_of_eq. apply Iout. rewrite Ids in Hd. 
        destruct (in_dec Nat.eq_dec c ia), (in_dec Nat.eq_dec c ib); tauto. }
      f_equal; f_equal; apply map_ext_in; intros c Hc; apply X; tauto. }
    assert (Ho' : forall o, out = Some o -> wf o /\ shp o = map sz outs) by (intros o E; apply (Ho o res E Hnp)).
    unfold contract_backend. rewrite Hnp. cbn [bind].
    destruct (@accumulate_spec alpha beta out res (tab_wf _ _) Ho') as (c & Ec & Sc & Wc & Gc).
    rewrite Ec. change (shp res) with (map sz outs) in Sc, Gc.
    assert (Hval2 : forall idx, inb (map sz outs) idx -> aget 0 res idx = sum_over K sz ds F (env_of outs idx)).
    { intros idx Hi. destruct (inb_bounded sz Nout Hi) as [Hb Hm]. rewrite <- (Hval _ Hb), Hm. reflexivity. }
    assert (Hsh : map (fun i => nth i (map sz (FA ++ FB)) 0%nat) (map (pos_in (FA ++ FB)) outs) = map sz outs).
    { rewrite map_map. apply map_ext_in. intros x Hx. apply pos_in_nth, (Permutation_in x (Permutation_sym Pc) Hx). }
    destruct ((length (dat a) =? 0)%nat || (length (dat b) =? 0)%nat)%bool eqn:Ez.
    - (* some extent is zero *)
      rewrite Hsh.
      assert (Hzero : forall e, bounded sz e outs -> sum_over K sz ds F e = 0).
      { intros e He. rewrite <- (sum_over_0 sz ds e). apply sum_over_ext; try exact Nds; [exact RF|intros ? ? _; reflexivity|].
        intros e' He' Hb. exfalso.
        assert (Hall : bounded sz e' ia /\ bounded sz e' ib).
        { assert (X : forall x, In x ia \/ In x ib -> (e' x < sz x)%nat).
          { intros x Hx. destruct (in_dec Nat.eq_dec x ds) as [Hd|Hd]; [apply Hb, Hd|].
            rewrite He' by exact Hd. apply He, Iout. rewrite Ids in Hd.
            destruct (in_dec Nat.eq_dec x ia), (in_dec Nat.eq_dec x ib); tauto. }
          split; intros x Hx; apply X; tauto. }
        destruct Hall as [HA HB]. apply orb_true_iff in Ez as [Ez|Ez]; apply Nat.eqb_eq in Ez.
        - apply (@prodn_zero_bounded sz ia e'); [rewrite <- Sa, <- Wa; exact Ez|exact HA].
        - apply (@prodn_zero_bounded sz ib e'); [rewrite <- Sb, <- Wb; exact Ez|exact HB]. }
      destruct out as [o|].
      + destruct (Ho' o eq_refl) as [Wo So].
        unfold reshape. rewrite So, Nat.eqb_refl. cbn [bind]. f_equal.
        assert (Eo3 : mkarr (map sz outs) (dat o) = o) by (rewrite <- So; destruct o; reflexivity).
        rewrite Eo3. apply (@arr_ext K 0).
        * destruct b1; [exact Wo|]. unfold wf. cbn [scale shp dat]. rewrite map_length. exact Wo.
        * exact Wc.
        * rewrite Sc. destruct b1; exact So.
        * intros idx Hi. assert (Hi' : inb (map sz outs) idx) by (destruct b1; cbn [scale shp] in Hi; rewrite So in Hi; exact Hi).
          rewrite (Gc idx Hi'). destruct (inb_bounded sz Nout Hi') as [Hb Hm].
          rewrite (Hval2 _ Hi'), (Hzero _ Hb).
          destruct b1; [rewrite Hb1 by reflexivity; ring|].
          unfold aget. cbn [shp dat scale].
          rewrite nth_map_lt with (d' := 0 : K) by (rewrite Wo; apply ravel_lt; rewrite So; exact Hi'). ring.
      + f_equal. apply (@arr_ext K 0); [apply full_wf|exact Wc|rewrite Sc; reflexivity|].
        intros idx Hi. cbn [full shp] in Hi. rewrite (Gc idx Hi), aget_full.
        destruct (inb_bounded sz Nout Hi) as [Hb Hm].
        rewrite (Hval2 _ Hi), (Hzero _ Hb). ring.
    - apply orb_false_iff in Ez as [Za Zb]. apply Nat.eqb_neq in Za, Zb.
      destruct (@gemm_path ia ib outs FA FB ds sz a b alpha beta out) as (g & Eg & Sg & Wg & Gg); try assumption.
      { intros x Hx Hd. apply without_in in Hx. tauto. }
      { intros x Hx Hd. apply without_in in Hx. tauto. }
      rewrite Eg. f_equal. apply (@arr_ext K 0); [exact Wg|exact Wc|congruence|].
      intros idx Hi. rewrite Sg in Hi. rewrite (Gc idx Hi).
      destruct (inb_bounded sz Nout Hi) as [Hb Hm]. pose proof (Gg _ Hb) as HG. rewrite Hm in HG.
      rewrite HG, (Hval2 _ Hi). reflexivity.
  Qed.
End Thms.
