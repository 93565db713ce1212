(** The statements of TensorProps.v from the lemmas of Unpack/Repack/SymmProofs. *)
From Coq Require Import Sorted String Field Field_theory.
From Coq Require Qcanon.
From Verif Require Import Base ListAux Alg PermSpec PermModel PermSign PermProofs TrilProofs SpinProofs StringPermProofs
  ArrModel ArrProofs TensorModel TensorSpec GroupProofs PackProofs TensorProofs UnpackProofs RepackProofs SymmProofs.
Local Open Scope string_scope.
Local Open Scope list_scope.
Local Open Scope nat_scope.

Section Thms.
  Variable K : rng.
  Add Ring KringT : (rth K).

  Lemma size_dims sub shape sizes n : extents_ok sub shape -> describes sub shape sizes ->
    get_compressed_size sub sizes = Ok n -> n = prodn (dims false (group_ncs sub shape)).
  Proof. intros He Hd H. rewrite (compressed_size _ He Hd) in H. congruence. Qed.

  Lemma pack_unpack sub shape sizes (v : arr K) : extents_ok sub shape -> describes sub shape sizes ->
    get_compressed_size sub sizes = Ok (length (dat v)) ->
    exists x c, decompress_axes K sub v shape false None = Ok x /\ compress_axes r0 sub x false = Ok c /\ dat c = dat v.
  Proof.
    intros He Hd Hs. pose proof (size_dims _ _ _ _ He Hd Hs) as Hl. pose proof (symc_repeat ch_minus sub shape) as Hsy.
    destruct (@decompress_char K sub v shape false None _ He Hsy (or_introl eq_refl) Hl) as (D & HD & _).
    exists D. eexists. split; [exact HD|]. split; [exact (@compress_decompress K sub v shape false None _ D He Hsy (or_introl eq_refl) Hl HD)|]. reflexivity.
  Qed.

  Lemma pack_unpack_symmetry sub symm shape sizes (v : arr K) : extents_ok sub shape -> describes sub shape sizes ->
    blocked sub -> symmetry_string sub symm ->
    get_compressed_size sub sizes = Ok (length (dat v)) ->
    exists x c, decompress_axes K sub v shape false (Some symm) = Ok x /\ compress_axes r0 sub x false = Ok c /\ dat c = dat v.
  Proof.
    intros He Hd Hb Hst Hs. pose proof (size_dims _ _ _ _ He Hd Hs) as Hl. destruct (@symc_blocked sub shape symm Hb Hst) as (symc & Hsy & _).
    destruct (@decompress_char K sub v shape false (Some symm) _ He Hsy (or_introl eq_refl) Hl) as (D & HD & _).
    exists D. eexists. split; [exact HD|]. split; [exact (@compress_decompress K sub v shape false (Some symm) _ D He Hsy (or_introl eq_refl) Hl HD)|]. reflexivity.
  Qed.

  Lemma plus_ok n : Forall (fun y => y <> ch_minus) (repeat 43 n).
  Proof. apply Forall_forall. intros y Hy. apply repeat_spec in Hy. subst. discriminate. Qed.

  Lemma pack_unpack_diagonal sub shape (v like packed : arr K) :
    extents_ok sub shape -> shp like = shape -> compress_axes r0 sub like true = Ok packed ->
    length (dat v) = length (dat packed) ->
    exists x c, decompress_axes K sub v shape true (Some (repeat 43 (length sub))) = Ok x /\
                compress_axes r0 sub x true = Ok c /\ dat c = dat v.
  Proof.
    intros He <- Hp Hl. rewrite compress_ok in Hp by exact He. injection Hp as <-.
    rewrite (tab_wf (dims true (group_ncs sub (shp like)))) in Hl. cbn [shp tab] in Hl.
    pose proof (symc_repeat 43 sub (shp like)) as Hsy.
    destruct (@decompress_char K sub v (shp like) true (Some (repeat 43 (length sub))) _ He Hsy (or_intror (plus_ok _)) Hl) as (D & HD & _).
    exists D. eexists. split; [exact HD|]. split; [exact (@compress_decompress K sub v (shp like) true (Some (repeat 43 (length sub))) _ D He Hsy (or_intror (plus_ok _)) Hl HD)|]. reflexivity.
  Qed.

  Lemma unpacked_antisymmetric sub shape sizes (v x : arr K) :
    extents_ok sub shape -> describes sub shape sizes ->
    get_compressed_size sub sizes = Ok (length (dat v)) ->
    decompress_axes K sub v shape false None = Ok x ->
    shp x = shape /\ antisymmetric sub x.
  Proof.
    intros He Hd Hs Hx. pose proof (size_dims _ _ _ _ He Hd Hs) as Hl. pose proof (symc_repeat ch_minus sub shape) as Hsy.
    split.
    - destruct (@decompress_char K sub v shape false None _ He Hsy (or_introl eq_refl) Hl) as (D & HD & E & _). congruence.
    - exact (@decompress_symmetric K sub v shape false None _ (fun _ => ch_minus) x He Hsy (or_introl eq_refl) Hl (syms_agree_const _ _) Hx).
  Qed.

  Lemma unpacked_symmetry sub symm shape sizes (v x : arr K) :
    extents_ok sub shape -> describes sub shape sizes -> blocked sub -> symmetry_string sub symm ->
    get_compressed_size sub sizes = Ok (length (dat v)) ->
    decompress_axes K sub v shape false (Some symm) = Ok x ->
    shp x = shape /\ symmetric_as (fun i => nth i symm 0 =? 45) sub x.
  Proof.
    intros He Hd Hb Hst Hs Hx. pose proof (size_dims _ _ _ _ He Hd Hs) as Hl. destruct (@symc_blocked sub shape symm Hb Hst) as (symc & Hsy & Hag).
    split.
    - destruct (@decompress_char K sub v shape false (Some symm) _ He Hsy (or_introl eq_refl) Hl) as (D & HD & E & _). congruence.
    - exact (@decompress_symmetric K sub v shape false (Some symm) _ (fun i => nth i symm 0) x He Hsy (or_introl eq_refl) Hl Hag Hx).
  Qed.

  Lemma unpack_pack sub (x : arr K) : no_two_torsion K -> wf x -> extents_ok sub (shp x) -> antisymmetric sub x ->
    exists c, compress_axes r0 sub x false = Ok c /\ decompress_axes K sub c (shp x) false None = Ok x.
  Proof.
    intros Ht Hw He Ha. eexists. split; [apply compress_ok; exact He|].
    apply (@decompress_compress K sub x false None _ (fun _ => ch_minus) _ Hw He (symc_repeat ch_minus sub (shp x)) (or_introl eq_refl) (syms_agree_const _ _)).
    - exact Ha.
    - intros _ idx Hi Htie. apply (@antisymmetric_tie K sub x idx Ht (proj1 He) Ha Hi Htie).
    - apply compress_ok. exact He.
  Qed.

  Lemma unpack_pack_symmetry sub symm (x : arr K) :
    no_two_torsion K -> wf x -> extents_ok sub (shp x) -> blocked sub -> symmetry_string sub symm ->
    symmetric_as (fun i => nth i symm 0 =? 45) sub x ->
    (forall idx i j, inb (shp x) idx -> i < length sub -> j < length sub -> i <> j -> nth i sub 0 = nth j sub 0 ->
       nth i symm 0 = 43 -> nth i idx 0 = nth j idx 0 -> aget r0 x idx = r0) ->
    exists c, compress_axes r0 sub x false = Ok c /\ decompress_axes K sub c (shp x) false (Some symm) = Ok x.
  Proof.
    intros Ht Hw He Hb Hst Ha Hplus. destruct (@symc_blocked sub (shp x) symm Hb Hst) as (symc & Hsy & Hag).
    eexists. split; [apply compress_ok; exact He|].
    apply (@decompress_compress K sub x false (Some symm) symc (fun i => nth i symm 0) _ Hw He Hsy (or_introl eq_refl) Hag Ha).
    - intros _ idx Hi (i & j & H1 & H2 & H3 & H4 & H5). destruct Hst as (HLs & Hpm & _).
      destruct (Hpm (nth i symm 0)) as [E|E]; [apply nth_In; lia|exact (Hplus idx i j Hi H1 H2 H3 H4 E H5)|].
      apply Ht. pose proof (Ha idx i j Hi H1 H2 H3 H4) as Hx. cbn beta in Hx. rewrite E in Hx. cbn [Nat.eqb] in Hx. rewrite <- Hx. f_equal.
      pose proof (inb_length Hi) as HLi. destruct He as [HLe _].
      apply nth_ext with (d := 0) (d' := 0); [rewrite exchange_length; reflexivity|].
      intros k Hk. rewrite exchange_nth by lia. destruct (Nat.eqb_spec k i) as [->|]; [exact H5|].
      destruct (Nat.eqb_spec k j) as [->|]; [symmetry; exact H5|reflexivity].
    - apply compress_ok. exact He.
  Qed.

  Lemma unpack_pack_diagonal sub (x : arr K) : wf x -> extents_ok sub (shp x) -> totally_symmetric sub x ->
    exists c, compress_axes r0 sub x true = Ok c /\
              decompress_axes K sub c (shp x) true (Some (repeat 43 (length sub))) = Ok x.
  Proof.
    intros Hw He Ha. eexists. split; [apply compress_ok; exact He|].
    apply (@decompress_compress K sub x true (Some (repeat 43 (length sub))) _ (fun _ => 43) _ Hw He (symc_repeat 43 sub (shp x)) (or_intror (plus_ok _)) (syms_agree_const _ _)).
    - exact Ha.
    - discriminate.
    - apply compress_ok. exact He.
  Qed.

  Lemma size_of_packed sub sizes (x : arr K) : extents_ok sub (shp x) -> describes sub (shp x) sizes ->
    exists c, compress_axes r0 sub x false = Ok c /\ get_compressed_size sub sizes = Ok (length (dat c)) /\ length (dat c) = prodn (shp c).
  Proof.
    intros He Hd. eexists. split; [apply compress_ok; exact He|]. rewrite (compressed_size _ He Hd).
    split; [|apply tab_wf]. f_equal. symmetry. apply (tab_wf (dims false (group_ncs sub (shp x)))).
  Qed.

  Lemma canon_inj diag ncs ks ks' : inb (dims diag ncs) ks -> inb (dims diag ncs) ks' -> canon diag ncs ks = canon diag ncs ks' -> ks = ks'.
  Proof.
    unfold dims, canon. revert ks ks'; induction ncs as [|nc ncs IH]; intros ks ks' H H' E; cbn [map] in H, H'; inversion H; inversion H'; subst; [reflexivity|].
    cbn [combine map fst snd] in E. injection E as E1 E2. f_equal; [|apply IH; assumption].
    apply (proj1 (NoDup_nth (tril diag nc) []) (tril_tuples_nodup _ _ _)); assumption.
  Qed.

  Lemma canonical_blocks diag sub idx : length idx = length sub ->
    (canonical diag sub idx <-> Forall (decreasing diag) (blocks sub idx)).
  Proof.
    intros HL. unfold canonical, blocks. rewrite Forall_map, Forall_forall. split.
    - intros H g Hg i j Hij Hj. rewrite pick_length in Hj. destruct (groups_sorted _ _ Hg) as [Hso _].
      assert (Pk : forall m, m < length g -> nth m (pick g idx) 0 = nth (nth m g 0) idx 0).
      { intros m Hm. unfold pick. apply (nth_map_lt (fun j => nth j idx 0) g 0 0 Hm). }
      rewrite !Pk by lia. assert (Hi1 : In (nth i g 0) g) by (apply nth_In; lia). assert (Hj1 : In (nth j g 0) g) by (apply nth_In; lia).
      destruct (groups_in _ _ _ Hg Hi1) as [Hil Hiff]. destruct (proj1 (Hiff _) Hj1) as [Hjl E].
      apply H; [|exact Hjl|congruence]. clear -Hso Hij Hj. revert i j Hij Hj. induction Hso as [|a g Hs IH Hf]; intros i j Hij Hj; [cbn in Hj; lia|].
      destruct j as [|j]; [lia|]. cbn in Hj. destruct i as [|i]; cbn [nth].
      + rewrite Forall_forall in Hf. apply Hf, nth_In. lia.
      + apply IH; lia.
    - intros H i j Hij Hj E. destruct (@groups_cover sub i ltac:(lia)) as (g & Hg & Hi). destruct (groups_in _ _ _ Hg Hi) as [Hil Hiff].
      assert (Hjg : In j g) by (apply Hiff; auto). specialize (H g Hg). destruct (groups_sorted _ _ Hg) as [Hso _].
      apply (In_nth _ _ 0) in Hi as (a & Ha & <-). apply (In_nth _ _ 0) in Hjg as (b & Hb & <-).
      assert (Hab : a < b).
      { clear -Hso Hij Ha Hb. revert a b Ha Hb Hij. induction Hso as [|x g Hs IH Hf]; intros a b Ha Hb Hij; [cbn in Ha; lia|].
        destruct a as [|a], b as [|b]; cbn [nth length] in *; try lia.
        - rewrite Forall_forall in Hf. specialize (Hf (nth a g 0) ltac:(apply nth_In; lia)). lia.
        - apply -> Nat.succ_lt_mono. apply IH; lia. }
      specialize (H a b Hab ltac:(rewrite pick_length; exact Hb)).
      assert (Pk : forall m, m < length g -> nth m (pick g idx) 0 = nth (nth m g 0) idx 0).
      { intros m Hm. unfold pick. apply (nth_map_lt (fun j => nth j idx 0) g 0 0 Hm). }
      rewrite !Pk in H by lia. exact H.
  Qed.

  Lemma packed_entries sub (x c : arr K) diag : extents_ok sub (shp x) -> compress_axes r0 sub x diag = Ok c ->
    exists idxs, length idxs = length (dat c) /\ NoDup idxs /\
      (forall idx, In idx idxs <-> inb (shp x) idx /\ canonical diag sub idx) /\ dat c = map (aget r0 x) idxs.
  Proof.
    intros He Hc. rewrite compress_ok in Hc by exact He. injection Hc as <-. set (ncs := group_ncs sub (shp x)).
    set (F := fun ks => unperm (concat (groups sub)) (concat (canon diag ncs ks))).
    exists (map F (all_idx (dims diag ncs))). split; [|split; [|split]].
    - unfold tab. cbn [dat]. rewrite !map_length. reflexivity.
    - apply NoDup_map_inj; [apply all_idx_nodup|]. intros ks ks' H1 H2 E. apply all_idx_in in H1, H2.
      destruct (@canon_blocks sub (shp x) diag ks He H1) as [_ B1]. destruct (@canon_blocks sub (shp x) diag ks' He H2) as [_ B2].
      fold ncs in B1, B2. apply (canon_inj diag ncs); [exact H1|exact H2|]. unfold F in E. rewrite <- B1, <- B2, E. reflexivity.
    - intros idx. rewrite in_map_iff. split.
      + intros (ks & <- & Hks). apply all_idx_in in Hks. destruct (@canon_blocks sub (shp x) diag ks He Hks) as [Hi B]. fold ncs in Hi, B. fold (F ks) in Hi, B.
        split; [exact Hi|]. apply canonical_blocks; [rewrite (inb_length Hi); apply He|]. rewrite B. clear -Hks. unfold canon, dims in *.
        revert ks Hks. induction ncs as [|nc l IH]; intros ks Hks; cbn [map] in Hks; inversion Hks; subst; cbn; constructor; [|apply IH; assumption].
        eapply tril_nth. eassumption.
      + intros [Hi Hcan]. apply canonical_blocks in Hcan; [|rewrite (inb_length Hi); apply He].
        pose proof (blocks_inb He Hi) as Hb. fold ncs in Hb.
        assert (Hks : exists ks, inb (dims diag ncs) ks /\ canon diag ncs ks = blocks sub idx).
        { clear -Hb Hcan. unfold shapes in Hb. revert Hb Hcan. generalize (blocks sub idx). unfold dims, canon.
          induction ncs as [|nc l IH]; intros us Hb Hcan; cbn [map] in Hb; inversion Hb as [|? y ? us' Hy Hus]; subst.
          - exists []. split; [constructor|reflexivity].
          - inversion Hcan as [|? ? Hdec Hrest]; subst. destruct (IH _ Hus Hrest) as (ks & G1 & G2). apply inb_repeat in Hy as [HL Hlt].
            assert (Hin : In y (tril diag nc)) by (apply tril_tuples_in; auto).
            apply (In_nth _ _ []) in Hin as (k & Hk & E). exists (k :: ks). split; [constructor; assumption|].
            cbn [combine map fst snd]. rewrite E, G2. reflexivity. }
        destruct Hks as (ks & Hks & E). exists ks. split; [|apply all_idx_in; exact Hks].
        destruct (@canon_blocks sub (shp x) diag ks He Hks) as [Hi' B']. fold ncs in Hi', B'. fold (F ks) in Hi', B'.
        apply (@blocks_eq sub); [rewrite (inb_length Hi'); apply He|rewrite (inb_length Hi); apply He|]. rewrite B'. exact E.
    - unfold tab. cbn [dat]. rewrite map_map. reflexivity.
  Qed.

  Lemma nth_error_repeat_lt {A} (v : A) n k : k < n -> nth_error (repeat v n) k = Some v.
  Proof. revert k; induction n as [|n IH]; intros k Hk; [lia|]. destruct k; [reflexivity|]. cbn. apply IH. lia. Qed.

  Lemma nonempty_len (sub : pystr) : sub <> [] -> 1 <= length sub.
  Proof. destruct sub; [contradiction|cbn; lia]. Qed.

  Lemma symc_repeat' v sub : symmetry_compress (map (@length nat) (groups sub)) (repeat v (length sub)) 0 = Ok (repeat v (length (groups sub))).
  Proof. pose proof (symc_repeat v sub (repeat 0 (length sub))) as H. rewrite group_counts in H. exact H. Qed.

  Lemma symmetrised_antisymmetric (factor : option (nat -> K)) sub (x : arr K) : sub <> [] -> wf x -> extents_ok sub (shp x) ->
    exists r, symmetrise K factor sub x None = Ok r /\ shp r = shp x /\ wf r /\ antisymmetric sub r.
  Proof.
    intros Hne Hw He. assert (Hch : forall k, k < length sub -> nth k sub 0 = nth 0 sub 0 -> nth_error (the_symm sub None) k = Some ch_minus).
    { intros k Hk _. apply nth_error_repeat_lt. exact Hk. }
    destruct (@symmetrise_char K factor sub x None _ ch_minus Hw He (nonempty_len _ Hne) (symc_repeat' ch_minus sub) Hch) as (r & E & Hwr & Hs & _).
    exists r. split; [exact E|]. split; [exact Hs|]. split; [exact Hwr|].
    exact (proj2 (@symmetrise_symmetric K factor sub x None _ ch_minus r Hw He (nonempty_len _ Hne) (symc_repeat' ch_minus sub) Hch E)).
  Qed.

  Lemma symmetrise_plus (factor : option (nat -> K)) sub (x : arr K) : sub <> [] -> wf x -> extents_ok sub (shp x) ->
    exists r, symmetrise K factor sub x (Some (repeat 43 (length sub))) = Ok r /\ shp r = shp x /\ totally_symmetric sub r.
  Proof.
    intros Hne Hw He.
    assert (Hch : forall k, k < length sub -> nth k sub 0 = nth 0 sub 0 -> nth_error (the_symm sub (Some (repeat 43 (length sub)))) k = Some 43).
    { intros k Hk _. apply nth_error_repeat_lt. exact Hk. }
    destruct (@symmetrise_char K factor sub x (Some (repeat 43 (length sub))) _ 43 Hw He (nonempty_len _ Hne) (symc_repeat' 43 sub) Hch) as (r & E & Hwr & Hs & _).
    exists r. split; [exact E|].
    exact (@symmetrise_symmetric K factor sub x (Some (repeat 43 (length sub))) _ 43 r Hw He (nonempty_len _ Hne) (symc_repeat' 43 sub) Hch E).
  Qed.

  Lemma first_axis_decides (factor : option (nat -> K)) sub symm (x : arr K) : sub <> [] -> wf x -> extents_ok sub (shp x) ->
    blocked sub -> symmetry_string sub symm ->
    exists r, symmetrise K factor sub x (Some symm) = Ok r /\ shp r = shp x /\ symmetric_as (fun _ => nth 0 symm 0 =? 45) sub r.
  Proof.
    intros Hne Hw He Hb Hst. destruct (@symc_blocked sub (shp x) symm Hb Hst) as (symc & Hsy & _). rewrite group_counts in Hsy.
    pose proof (nonempty_len _ Hne) as Hl.
    assert (Hch : forall k, k < length sub -> nth k sub 0 = nth 0 sub 0 -> nth_error (the_symm sub (Some symm)) k = Some (nth 0 symm 0)).
    { intros k Hk E. destruct Hst as (HLs & _ & Hc). unfold the_symm. rewrite (nth_error_nth' symm 0) by lia. f_equal. apply Hc; [lia|lia|exact E]. }
    destruct (@symmetrise_char K factor sub x (Some symm) _ _ Hw He Hl Hsy Hch) as (r & E & Hwr & Hs & _).
    exists r. split; [exact E|]. exact (@symmetrise_symmetric K factor sub x (Some symm) _ _ r Hw He Hl Hsy Hch E).
  Qed.
End Thms.

Lemma exponent_sum l a : fold_left (fun acc n => acc + Nat.max 0 (n - 1)) l a = a + fold_right Nat.add 0 (map pred l).
Proof. revert a; induction l as [|n l IH]; intros a; cbn [fold_left map fold_right]; [lia|]. rewrite IH. lia. Qed.

Lemma group_mults sub : map (@length nat) (groups sub) = multiplicities sub.
Proof. unfold groups, multiplicities. rewrite map_map. apply map_ext. intros c. apply occ_length. Qed.

Section Field.
  Variable F : fld.
  Add Field Ffield : (fth F).

  Lemma symmetrise_scaling sub (x : arr F) : sub <> [] -> wf x -> extents_ok sub (shp x) -> antisymmetric sub x ->
    symmetrise F (Some half_pow) sub x None =
      Ok (mkarr (shp x) (map (fun v => rmul v (fdiv (rnat (stabiliser_size sub))
            (rpow (radd r1 r1) (fold_right Nat.add 0 (map pred (multiplicities sub)))))) (dat x))).
  Proof.
    intros Hne Hw He Ha.
    assert (Hch : forall k, k < length sub -> nth k sub 0 = nth 0 sub 0 -> nth_error (the_symm sub None) k = Some ch_minus).
    { intros k Hk _. apply nth_error_repeat_lt. exact Hk. }
    rewrite (@symmetrise_scales F (Some half_pow) sub x None _ ch_minus Hw He (nonempty_len _ Hne) (symc_repeat' ch_minus sub) Hch Ha).
    unfold arr_scale. f_equal. f_equal. apply map_ext. intros v. f_equal.
    unfold half_pow. rewrite group_mults. unfold symmetry_exponent. rewrite exponent_sum. cbn [Nat.add].
    rewrite !(Field_theory.Fdiv_def (fth F)). ring.
  Qed.

  Lemma pow_mults l : (forall n : nat, In n l -> 1 <= n <= 2) ->
    rnat (fold_right Nat.mul 1 (map fact l)) = rpow (radd r1 r1) (fold_right Nat.add 0 (map pred l)) :> F.
  Proof.
    induction l as [|n l IH]; intros H; cbn [map fold_right]; [cbn; ring|].
    rewrite rnat_mul, rpow_add, IH by (intros m Hm; apply H; right; exact Hm).
    destruct (H n (or_introl eq_refl)). destruct n as [|[|[|n]]]; try lia; cbn; ring.
  Qed.

  Lemma pow_nonzero n : radd r1 r1 <> @r0 F -> rpow (radd r1 r1) n <> @r0 F.
  Proof.
    intros H2. induction n as [|n IH]; cbn; [exact (Field_theory.F_1_neq_0 (fth F))|]. intros E. apply IH.
    assert (E' : rmul (finv (radd r1 r1)) (rmul (radd r1 r1) (rpow (radd r1 r1) n)) = r0) by (rewrite E; ring).
    rewrite <- E'. field. exact H2.
  Qed.

  Lemma mults_pos sub n : In n (multiplicities sub) -> 1 <= n.
  Proof.
    rewrite <- group_mults. intros H. pose proof (groups_pos sub) as Hp. rewrite Forall_forall in Hp. auto.
  Qed.

  Lemma projection_fixed sub (x : arr F) : radd r1 r1 <> @r0 F -> sub <> [] -> wf x -> extents_ok sub (shp x) ->
    (forall n, In n (multiplicities sub) -> n <= 2) -> antisymmetric sub x -> symmetrise F (Some half_pow) sub x None = Ok x.
  Proof.
    intros H2 Hne Hw He Hm Ha. rewrite symmetrise_scaling by assumption. f_equal. destruct x as [sh d]. cbn [shp dat]. f_equal.
    transitivity (map (fun v : F => v) d); [|apply map_id]. apply map_ext. intros v. unfold stabiliser_size.
    rewrite pow_mults by (intros n Hn; split; [apply (mults_pos sub n Hn)|auto]). field. apply pow_nonzero. exact H2.
  Qed.

  Lemma projection_pairs sub (x : arr F) : radd r1 r1 <> @r0 F -> sub <> [] -> wf x -> extents_ok sub (shp x) ->
    (forall n, In n (multiplicities sub) -> n <= 2) ->
    (antisymmetric sub x -> symmetrise F (Some half_pow) sub x None = Ok x) /\
    (exists r, symmetrise F (Some half_pow) sub x None = Ok r /\ symmetrise F (Some half_pow) sub r None = Ok r).
  Proof.
    intros H2 Hne Hw He Hm. split; [intros Ha; apply projection_fixed; assumption|].
    destruct (@symmetrised_antisymmetric F (Some half_pow) sub x Hne Hw He) as (r & E & Hs & Hwr & Ha).
    exists r. split; [exact E|]. apply projection_fixed; try assumption. rewrite Hs. exact He.
  Qed.
End Field.

(** Witnesses. *)
Ltac small := intros [|[|[|[|i]]]] [|[|[|[|j]]]] Hi Hj E; cbn in *; try lia; try discriminate; reflexivity.

Lemma interleaved_refuted : exists (sub symm : pystr) (shape : list nat) (v : arr Z_rng),
  extents_ok sub shape /\ symmetry_string sub symm /\
  get_compressed_size sub [(105, 2); (106, 2)] = Ok (length (dat v)) /\
  decompress_axes Z_rng sub v shape false (Some symm) = Err AssertionError.
Proof.
  exists (str "iji"), (str "-+-"), [2; 2; 2], (mkarr [2] [1; 2]%Z). split; [split; [reflexivity|small]|].
  split; [split; [reflexivity|]; split; [cbn; intuition lia|small]|]. split; vm_compute; reflexivity.
Qed.

Lemma diagonal_minus_refuted : exists (sub : pystr) (shape : list nat) (v x : arr Z_rng),
  extents_ok sub shape /\ decompress_axes Z_rng sub v shape true None = Ok x /\ ~ antisymmetric sub x.
Proof.
  exists (str "ii"), [2; 2], (mkarr [3] [1; 2; 3]%Z). eexists. split; [split; [reflexivity|small]|].
  split; [vm_compute; reflexivity|]. intros H. specialize (H [1; 1] 0 1). cbn in H.
  discriminate H; try lia. repeat constructor.
Qed.

Lemma projection_refuted : exists (sub : pystr) (x r : arr Qc_fld),
  wf x /\ extents_ok sub (shp x) /\ antisymmetric sub x /\
  symmetrise Qc_fld (Some half_pow) sub x None = Ok r /\ r <> x.
Proof.
  assert (He : extents_ok (str "iii") [3; 3; 3]) by (split; [reflexivity|small]).
  set (v := mkarr [1] [Qcanon.Q2Qc (QArith_base.Qmake 1 1)] : arr Qc_fld).
  destruct (@decompress_char Qc_fld (str "iii") v [3;3;3] false None _ He (symc_repeat ch_minus _ _) (or_introl eq_refl)) as (D & HD & Hs & Hw & _); [reflexivity|].
  destruct (@unpacked_antisymmetric Qc_fld (str "iii") [3;3;3] [(105, 3)] v D He) as [_ Ha]; [|reflexivity|exact HD|].
  { intros [|[|[|i]]] Hi; cbn in *; try lia; reflexivity. }
  exists (str "iii"), D. eexists. split; [exact Hw|]. split; [rewrite Hs; exact He|]. split; [exact Ha|]. split.
  - apply symmetrise_scaling; [discriminate|exact Hw|rewrite Hs; exact He|exact Ha].
  - vm_compute in HD. injection HD as <-. intros E. apply (f_equal (fun a => Qcanon.this (nth 5 (dat a) (Qcanon.Q2Qc (QArith_base.Qmake 0 1))))) in E. vm_compute in E. discriminate E.
Qed.

Lemma mixed_refuted : exists (sub symm : pystr) (x r : arr Z_rng),
  wf x /\ extents_ok sub (shp x) /\ blocked sub /\ symmetry_string sub symm /\
  symmetrise Z_rng None sub x (Some symm) = Ok r /\ ~ symmetric_as (fun i => nth i symm 0 =? 45) sub r.
Proof.
  exists (str "iiaa"), (str "++--"), (mkarr [1; 1; 2; 2] [1; 0; 0; 0]%Z). eexists. split; [reflexivity|]. split; [split; [reflexivity|small]|].
  split; [intros i j k Hij Hjk Hk E; destruct i as [|[|[|[|i]]]], j as [|[|[|[|j]]]], k as [|[|[|[|k]]]]; cbn in *; try lia; try discriminate|].
  split; [split; [reflexivity|]; split; [cbn; intuition lia|small]|]. split; [vm_compute; reflexivity|].
  intros H. specialize (H [0; 0; 0; 0] 2 3). cbn in H. discriminate H; try lia. repeat constructor.
Qed.
