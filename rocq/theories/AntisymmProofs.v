(** antisymmetrise_array: the signed sum over the permutations of the chosen axes. *)
From Verif Require Import Base ListAux Alg PermSpec PermModel PermSign PermProofs TrilProofs SpinProofs StringPermProofs
  ArrModel ArrProofs TensorModel TensorSpec GroupProofs PackProofs TensorProofs UnpackProofs RepackProofs SymmProofs AntisymmSpec.
From Coq Require Import Sorted.
Set Implicit Arguments.

Lemma index_of_notin x (l : list nat) : ~ In x l -> index_of x l = None.
Proof. intros H. destruct (index_of x l) eqn:E; [|reflexivity]. apply index_of_nth in E as [H1 H2]. exfalso. apply H. rewrite <- H2. apply nth_In. exact H1. Qed.

(** The subscript that identifies exactly the chosen axes. *)
Definition marks (n : nat) (axes : list nat) : list nat := map (fun k => if in_dec Nat.eq_dec k axes then 0 else S k) (seq 0 n).

Lemma marks_length n axes : length (marks n axes) = n.
Proof. unfold marks. rewrite map_length, seq_length. reflexivity. Qed.
Lemma marks_nth n axes k : k < n -> nth k (marks n axes) 0 = if in_dec Nat.eq_dec k axes then 0 else S k.
Proof. intros H. unfold marks. rewrite (nth_map_lt _ _ 0 0) by (rewrite seq_length; exact H). rewrite seq_nth by exact H. reflexivity. Qed.

Lemma marks_eq n axes i j : i < n -> j < n -> nth i (marks n axes) 0 = nth j (marks n axes) 0 <-> i = j \/ (In i axes /\ In j axes).
Proof.
  intros Hi Hj. rewrite !marks_nth by assumption.
  destruct (in_dec Nat.eq_dec i axes), (in_dec Nat.eq_dec j axes); split; intros H; try lia; try tauto.
  - destruct H as [->|[_ H]]; contradiction.
  - destruct H as [->|[H _]]; contradiction.
  - destruct H as [->|[H _]]; [reflexivity|contradiction].
Qed.

Lemma antisymm_assign n axes perm : NoDup axes -> (forall k, In k axes -> k < n) -> length perm = length axes ->
  antisymm_perm n axes perm = assign axes perm (seq 0 n).
Proof.
  intros Hnd Hlt HL. unfold antisymm_perm. apply nth_ext with (d := 0) (d' := 0).
  { rewrite map_length, assign_length. reflexivity. }
  intros k Hk. rewrite map_length, seq_length in Hk. rewrite (nth_map_lt _ _ 0 0) by (rewrite seq_length; exact Hk).
  rewrite seq_nth by exact Hk. cbn [Nat.add]. destruct (in_dec Nat.eq_dec k axes) as [Hin|Hin].
  - apply (In_nth _ _ 0) in Hin as (j & Hj & <-). rewrite index_of_nodup by assumption.
    rewrite <- (@assign_pick axes perm (seq 0 n)) at 1; [|exact Hnd|intros q Hq; rewrite seq_length; auto|exact HL].
    unfold pick. apply (nth_map_lt (fun q => nth q (assign axes perm (seq 0 n)) 0) axes 0 0 Hj).
  - rewrite index_of_notin by exact Hin. rewrite assign_out by exact Hin. rewrite seq_nth by exact Hk. reflexivity.
Qed.

Section Axes.
  Variables (n : nat) (axes : list nat).
  Hypothesis Hnd : NoDup axes.
  Hypothesis Hlt : forall k, In k axes -> k < n.
  Let s := marks n axes.

  Lemma seq_lt' k : In k axes -> k < length (seq 0 n).
  Proof. rewrite seq_length. apply Hlt. Qed.

  Lemma pick_axes_seq : pick axes (seq 0 n) = axes.
  Proof. unfold pick. rewrite <- (map_id axes) at 2. apply map_ext_in. intros k Hk. apply seq_nth. apply Hlt. exact Hk. Qed.

  Definition axis_sum : list (list nat * Z) := map (fun ps => (antisymm_perm n axes (fst ps), snd ps)) (permutations_with_signs axes).

  Lemma axis_perm p z : In (p, z) (permutations_with_signs axes) ->
    length p = length axes /\ preserves s (antisymm_perm n axes p) /\ z = psign (antisymm_perm n axes p).
  Proof.
    intros H. assert (HP : Permutation axes p) by (apply pws_in_fst, in_map_iff; exists (p, z); auto).
    assert (HL : length p = length axes) by (symmetry; apply Permutation_length; exact HP). split; [exact HL|].
    rewrite antisymm_assign by assumption. destruct (@pws_swaps _ _ _ Hnd H) as (m & Hm & ->).
    pose proof (@assign_swaps axes Hnd m _ _ Hm (seq 0 n) seq_lt' pick_axes_seq) as HS. split.
    - split; [unfold s; rewrite marks_length; exact (swaps_perm HS)|]. unfold s. rewrite marks_length. intros k Hk.
      destruct (in_dec Nat.eq_dec k axes) as [Hin|Hin].
      + apply (In_nth _ _ 0) in Hin as (j & Hj & Ej).
        assert (E : nth k (assign axes p (seq 0 n)) 0 = nth j p 0).
        { rewrite <- (@assign_pick axes p (seq 0 n) Hnd seq_lt' HL) at 2. rewrite <- Ej. unfold pick. symmetry.
          apply (nth_map_lt (fun q => nth q (assign axes p (seq 0 n)) 0) axes 0 0 Hj). }
        rewrite E. assert (Hin' : In (nth j p 0) axes) by (apply (Permutation_in _ (Permutation_sym HP)), nth_In; lia).
        apply marks_eq; [auto|exact Hk|]. right. split; [exact Hin'|]. rewrite <- Ej. apply nth_In. exact Hj.
      + rewrite assign_out by exact Hin. rewrite seq_nth by exact Hk. reflexivity.
    - apply (@swaps_psign _ _ _ HS).
  Qed.

  Lemma axis_sum_perm : Permutation (perm_sum s) axis_sum.
  Proof.
    assert (Hinj : forall p p', length p = length axes -> length p' = length axes -> antisymm_perm n axes p = antisymm_perm n axes p' -> p = p').
    { intros p p' H1 H2 E. rewrite !antisymm_assign in E by assumption.
      rewrite <- (@assign_pick axes p (seq 0 n) Hnd seq_lt' H1), E. apply assign_pick; [exact Hnd|exact seq_lt'|exact H2]. }
    pose proof (NoDup_map_inv _ _ (@perm_sum_nodup s)) as N1.
    pose proof (NoDup_map_inv _ _ (@pws_nodup _ axes Hnd)) as N2.
    apply NoDup_Permutation; [exact N1| |].
    - apply NoDup_map_inj; [exact N2|]. intros [p z] [p' z'] H1 H2 E. cbn [fst snd] in E. injection E as E1 E2.
      apply axis_perm in H1 as [L1 _], H2 as [L2 _]. f_equal; [apply Hinj; assumption|exact E2].
    - intros [p z]. rewrite perm_sum_in. unfold axis_sum. rewrite in_map_iff. split.
      + intros [[HP Hpr] ->]. unfold s in HP, Hpr. rewrite marks_length in HP, Hpr. pose proof (@perm_seq_length _ _ HP) as HLp.
        assert (Hfix : forall k, ~ In k axes -> nth k p 0 = nth k (seq 0 n) 0).
        { intros k Hk. destruct (Nat.lt_ge_cases k n) as [Hkn|Hkn].
          - specialize (Hpr k Hkn). assert (nth k p 0 < n) by (apply (perm_seq_lt _ _ HP), nth_In; lia).
            apply marks_eq in Hpr; [|assumption|exact Hkn]. rewrite seq_nth by exact Hkn. destruct Hpr as [->|[_ H1]]; [reflexivity|contradiction].
          - rewrite !nth_overflow; [reflexivity|rewrite seq_length; exact Hkn|lia]. }
        assert (Hpk : Permutation axes (pick axes p)).
        { symmetry. apply NoDup_Permutation_bis.
          - apply NoDup_map_inj; [exact Hnd|]. intros a b Ha Hb E. apply (proj1 (NoDup_nth p 0) (@perm_seq_nodup _ _ HP)) in E; [exact E|rewrite HLp; auto|rewrite HLp; auto].
          - rewrite pick_length. lia.
          - intros x Hx. unfold pick in Hx. apply in_map_iff in Hx as (k & <- & Hk). specialize (Hpr k (@Hlt k Hk)).
            assert (nth k p 0 < n) by (apply (perm_seq_lt _ _ HP), nth_In; rewrite HLp; auto).
            apply marks_eq in Hpr; [|assumption|auto]. destruct Hpr as [->|[H1 _]]; assumption. }
        apply pws_in_fst, in_map_iff in Hpk as ([q z'] & Eq & Hin). cbn [fst] in Eq. subst q.
        exists (pick axes p, z'). cbn [fst snd]. split; [|exact Hin]. destruct (@axis_perm _ _ Hin) as (HL & _ & ->).
        assert (E : antisymm_perm n axes (pick axes p) = p).
        { rewrite antisymm_assign by assumption. symmetry. apply assign_unique; [exact Hnd|exact seq_lt'|rewrite seq_length; exact HLp|exact Hfix]. }
        rewrite E. reflexivity.
      + intros ([q z'] & E & Hin). cbn [fst snd] in E. injection E as <- <-. destruct (@axis_perm _ _ Hin) as (_ & H1 & H2). auto.
  Qed.

  (** The transposition moves entries between the chosen axes only. *)
  Lemma unperm_moved p z idx : In (p, z) (permutations_with_signs axes) -> length idx = n ->
    unperm (antisymm_perm n axes p) idx = moved axes p idx.
  Proof.
    intros H HL. destruct (@axis_perm _ _ H) as (Lp & [HP _] & _). unfold s in HP. rewrite marks_length in HP.
    set (Q := antisymm_perm n axes p) in *. pose proof (@perm_seq_length _ _ HP) as HLQ.
    assert (HPp : Permutation axes p) by (apply pws_in_fst, in_map_iff; exists (p, z); auto).
    assert (Np : NoDup p) by (apply (Permutation_NoDup HPp), Hnd).
    rewrite <- (@unperm_gather Q (moved axes p idx)); [|rewrite HLQ; exact HP|unfold moved; rewrite map_length, seq_length; lia].
    f_equal. apply nth_ext with (d := 0) (d' := 0); [rewrite map_length; lia|]. intros k Hk.
    rewrite (nth_map_lt _ _ 0 0) by lia.
    assert (HQ : nth k Q 0 < n) by (apply (perm_seq_lt _ _ HP), nth_In; lia).
    unfold moved. rewrite (nth_map_lt _ _ 0 0) by (rewrite seq_length; lia). rewrite seq_nth by lia. cbn [Nat.add].
    unfold Q. unfold antisymm_perm. rewrite (nth_map_lt _ _ 0 0) by (rewrite seq_length; lia). rewrite seq_nth by lia. cbn [Nat.add].
    destruct (in_dec Nat.eq_dec k axes) as [Hin|Hin].
    - apply (In_nth _ _ 0) in Hin as (j & Hj & <-). rewrite (@index_of_nodup axes j Hnd Hj).
      rewrite (@index_of_nodup p j Np) by lia. reflexivity.
    - rewrite (@index_of_notin k axes Hin). rewrite index_of_notin; [reflexivity|]. intros H'. apply Hin, (Permutation_in _ (Permutation_sym HPp) H').
  Qed.
End Axes.

Section Antisymm.
  Variable K : rng.
  Add Ring KringAs : (rth K).
  Local Open Scope rng_scope.

  Lemma antisymm_fold n axes (a : arr K) L : NoDup axes -> (forall k, In k axes -> (k < n)%nat) -> length (shp a) = n ->
    extents_ok (marks n axes) (shp a) -> (forall q, In q L -> In q (permutations_with_signs axes)) ->
    forall acc, wf acc -> shp acc = shp a ->
    exists r, foldM (fun acc ps => bind (transpose r0 a (antisymm_perm n axes (fst ps))) (fun t => arr_addM K acc (arr_scale K (sgn K (snd ps)) t))) L acc = Ok r
      /\ wf r /\ shp r = shp a /\
      forall idx, inb (shp a) idx -> aget r0 r idx = aget r0 acc idx +
        rsum (map (sterm K ch_minus a idx) (map (fun ps => (antisymm_perm n axes (fst ps), snd ps)) L)).
  Proof.
    intros Hnd Hlt Hn Hext. induction L as [|[p z] L IH]; intros HL acc Hw Hs.
    - exists acc. split; [reflexivity|]. split; [exact Hw|]. split; [exact Hs|]. intros idx _. cbn [map]. change (rsum (K:=K) []) with (@r0 K). ring.
    - destruct (@axis_perm n axes Hnd Hlt p z (HL _ (or_introl eq_refl))) as (_ & Hpr & _). set (Q := antisymm_perm n axes p) in *.
      pose proof Hpr as [HP _]. rewrite marks_length in HP.
      assert (Ht : transpose r0 a Q = Ok (tab (shp a) (fun idx => aget r0 a (unperm Q idx)))).
      { rewrite transpose_ok by (rewrite Hn; exact HP). rewrite (preserves_shape Hext Hpr). reflexivity. }
      cbn [foldM fst snd]. fold Q. rewrite Ht. cbn [bind]. unfold arr_addM at 1. cbn [shp arr_scale tab].
      destruct (list_eq_dec Nat.eq_dec (shp acc) (shp a)); [|contradiction]. cbn [bind].
      match goal with |- context [foldM _ L ?x] => set (acc' := x) in * end.
      assert (Hw' : wf acc') by (apply arr_add_wf; [exact Hw|apply (@arr_scale_wf K _ (tab (shp a) _)), tab_wf|exact Hs]).
      destruct (IH ltac:(intros t Ht'; apply HL; right; exact Ht') acc' Hw' Hs) as (r & H1 & H2 & H3 & H4).
      exists r. split; [exact H1|]. split; [exact H2|]. split; [exact H3|].
      intros idx Hi. rewrite (H4 idx Hi). cbn [map]. rewrite rsum_cons. unfold acc'.
      rewrite (@aget_add K acc (arr_scale K (sgn K z) (tab (shp a) (fun idx => aget r0 a (unperm Q idx))))); [|exact Hw|apply arr_scale_wf, tab_wf|exact Hs].
      rewrite aget_scale, aget_tab by exact Hi. unfold sterm at 2. cbn [fst snd]. fold Q.
      assert (Ec : chosen ch_minus z = z) by reflexivity. rewrite Ec. ring.
  Qed.

  Lemma axes_extents (a : arr K) axes : axes_ok a axes -> extents_ok (marks (length (shp a)) axes) (shp a).
  Proof.
    intros (Hnd & Hlt & He). split; [rewrite marks_length; reflexivity|]. rewrite marks_length. intros i j Hi Hj E.
    apply marks_eq in E; [|exact Hi|exact Hj]. destruct E as [->|[H1 H2]]; [reflexivity|]. apply He; assumption.
  Qed.

  Lemma on_marks (a : arr K) axes : (forall k, In k axes -> (k < length (shp a))%nat) ->
    antisymmetric_on axes a <-> symmetric_as (fun _ => (ch_minus =? ch_minus)%nat) (marks (length (shp a)) axes) a.
  Proof.
    intros Hlt. assert (Et : (ch_minus =? ch_minus)%nat = true) by reflexivity. rewrite Et. split.
    - intros H idx i j Hidx Hi Hj Hij E. rewrite marks_length in Hi, Hj. apply marks_eq in E; [|exact Hi|exact Hj].
      destruct E as [E|[H1 H2]]; [contradiction|]. apply H; assumption.
    - intros H idx i j Hidx Hi Hj Hij. apply (H idx i j); [exact Hidx|rewrite marks_length; auto|rewrite marks_length; auto|exact Hij|].
      apply marks_eq; auto.
  Qed.

  Lemma antisymmetrise_sum (a : arr K) (axes : option (list nat)) : wf a -> axes_ok a (chosen_axes a axes) ->
    exists r, antisymmetrise_array K a axes = Ok r /\ shp r = shp a /\ wf r /\ antisymmetric_on (chosen_axes a axes) r /\
      (forall idx, inb (shp a) idx -> aget r0 r idx =
         rsum (map (fun ps => rmul (sgn K (snd ps)) (aget r0 a (moved (chosen_axes a axes) (fst ps) idx)))
                   (permutations_with_signs (chosen_axes a axes)))) /\
      (antisymmetric_on (chosen_axes a axes) a ->
         r = mkarr (shp a) (map (fun v => rmul v (rnat (fact (length (chosen_axes a axes))))) (dat a))).
  Proof.
    intros Hw Hok. pose proof (axes_extents Hok) as Hext. unfold antisymmetrise_array.
    change (match axes with None => seq 0 (length (shp a)) | Some l => l end) with (chosen_axes a axes).
    set (ax := chosen_axes a axes) in *. destruct Hok as (Hnd & Hlt & He). set (n := length (shp a)) in *.
    destruct (@antisymm_fold n ax a (permutations_with_signs ax) Hnd Hlt eq_refl Hext ltac:(auto) (full (shp a) r0) (full_wf _ _) eq_refl)
      as (r & H1 & H2 & H3 & H4).
    assert (Hp : forall idx, rsum (map (sterm K ch_minus a idx) (map (fun ps => (antisymm_perm n ax (fst ps), snd ps)) (permutations_with_signs ax))) =
      rsum (map (sterm K ch_minus a idx) (perm_sum (marks n ax)))).
    { intros idx. symmetry. apply (@rsum_perm K). apply Permutation_map. apply axis_sum_perm; assumption. }
    exists r. split; [exact H1|]. split; [exact H3|]. split; [exact H2|]. split; [|split].
    - intros idx i j Hidx Hi Hj Hij. rewrite H3 in Hidx.
      assert (Em : nth i (marks n ax) 0%nat = nth j (marks n ax) 0%nat) by (apply marks_eq; auto).
      assert (Hi' : (i < length (marks n ax))%nat) by (rewrite marks_length; auto).
      assert (Hj' : (j < length (marks n ax))%nat) by (rewrite marks_length; auto).
      rewrite !H4, !Hp by (try apply (@exchange_inb (marks n ax)); assumption). rewrite aget_full, aget_full.
      rewrite (@sum_exchange K (marks n ax) a ch_minus idx i j Hext Hidx Hi' Hj' Hij Em).
      assert (Et : (ch_minus =? ch_minus)%nat = true) by reflexivity. rewrite Et. ring.
    - intros idx Hidx. rewrite (H4 idx Hidx), aget_full, map_map.
      transitivity (rsum (map (fun x => sterm K ch_minus a idx (antisymm_perm n ax (fst x), snd x)) (permutations_with_signs ax))); [ring|].
      apply (@rsum_map_ext K). intros [p z] Hin. unfold sterm. cbn [fst snd].
      rewrite (@unperm_moved n ax Hnd Hlt p z idx Hin) by (rewrite (inb_length Hidx); reflexivity).
      assert (Ec : chosen ch_minus z = z) by reflexivity. rewrite Ec. ring.
    - intros Ha. apply (@on_marks a ax Hlt) in Ha. fold n in Ha.
      change (mkarr (shp a) (map (fun v => v * rnat (fact (length ax))) (dat a))) with (arr_scale K (rnat (fact (length ax))) a).
      apply (@arr_ext K r0); [exact H2|apply arr_scale_wf; exact Hw|exact H3|]. intros idx Hidx. rewrite H3 in Hidx.
      rewrite (H4 idx Hidx), Hp, aget_full, aget_scale, (@sum_symmetric K (marks n ax) a ch_minus idx Hext Ha Hidx).
      replace (stabiliser_size (marks n ax)) with (fact (length ax)); [ring|].
      rewrite <- perm_sum_length, (Permutation_length (@axis_sum_perm n ax Hnd Hlt)). unfold axis_sum. rewrite map_length. symmetry. apply pws_length.
  Qed.
End Antisymm.
