(** Proofs about combine_subscripts. *)
From Verif Require Import Base ListAux PermSpec PermModel TrilProofs.
Set Implicit Arguments.

Definition cm_ok (cmap : dict pystr nat) (j : nat) : Prop :=
  j = length (dkeys cmap) /\ j <= 91 /\ NoDup (dkeys cmap) /\
  forall i k, nth_error (dkeys cmap) i = Some k -> dget pystr_eq_dec k cmap = Some (97 + i).

Lemma cm_ok_inj cmap j k1 k2 c : cm_ok cmap j -> dget pystr_eq_dec k1 cmap = Some c -> dget pystr_eq_dec k2 cmap = Some c -> k1 = k2.
Proof.
  intros (Hj & _ & Hnd & Hnth) H1 H2.
  assert (G : forall k, dget pystr_eq_dec k cmap = Some c -> nth_error (dkeys cmap) (c - 97) = Some k).
  { intros k Hk. assert (Hin : In k (dkeys cmap)).
    { destruct (in_dec pystr_eq_dec k (dkeys cmap)) as [|Hn]; [assumption|].
      apply (dget_none pystr_eq_dec) in Hn. congruence. }
    apply In_nth_error in Hin as [i Hi]. rewrite (Hnth _ _ Hi) in Hk.
    assert (Ec : c = 97 + i) by congruence. replace (c - 97) with i by lia. exact Hi. }
  apply G in H1. apply G in H2. congruence.
Qed.

Lemma cm_ok_add cmap j k : cm_ok cmap j -> j <> 91 -> dget pystr_eq_dec k cmap = None ->
  cm_ok (dset pystr_eq_dec k (97 + j) cmap) (S j).
Proof.
  intros (Hj & Hle & Hnd & Hnth) Hne Hk. apply dget_none in Hk. unfold cm_ok.
  pose proof (dset_nodup pystr_eq_dec k (97 + j) cmap Hnd) as Hnd'.
  rewrite (dkeys_dset_new pystr_eq_dec k (97 + j) cmap Hk) in *. rewrite app_length. cbn [length].
  repeat split; [lia|lia|exact Hnd'|].
  intros i k' Hi. rewrite dget_dset. destruct (pystr_eq_dec k' k) as [->|Hkk].
  - assert (i = j); [|subst; reflexivity]. 
    rewrite NoDup_nth_error in Hnd'. apply Hnd'.
    + apply nth_error_Some. congruence.
    + rewrite Hi, nth_error_app2 by lia. rewrite Hj, Nat.sub_diag. reflexivity.
  - apply Hnth. destruct (Nat.lt_ge_cases i (length (dkeys cmap))) as [Hl|Hl].
    + rewrite nth_error_app1 in Hi by exact Hl. exact Hi.
    + rewrite nth_error_app2 in Hi by exact Hl. destruct (i - length (dkeys cmap)) as [|m]; cbn in Hi; [congruence|].
      destruct m; discriminate.
Qed.

(** The loop returns one letter per key, with equal letters exactly on equal keys. *)
Lemma combine_loop_spec sizes keys cmap j sub szs : cm_ok cmap j ->
  combine_loop sizes keys cmap j = Ok (sub, szs) ->
  exists (f : pystr -> nat),
    sub = map f keys /\
    (forall k c, dget pystr_eq_dec k cmap = Some c -> f k = c) /\
    (forall k1 k2, In k1 (dkeys cmap ++ keys) -> In k2 (dkeys cmap ++ keys) -> f k1 = f k2 -> k1 = k2) /\
    (sizes = [] -> szs = []) /\
    (sizes <> [] -> Forall2 (fun k p => fst p = f k /\ dget pystr_eq_dec k sizes = Some (snd p)) keys szs).
Proof.
  revert cmap j sub szs; induction keys as [|k keys IH]; intros cmap j sub szs Hok H; cbn [combine_loop] in H.
  - injection H as <- <-. exists (fun k => match dget pystr_eq_dec k cmap with Some c => c | None => 0 end).
    repeat split; [intros k c ->; reflexivity| |constructor].
    intros k1 k2 H1 H2 E. rewrite app_nil_r in *.
    destruct (dget pystr_eq_dec k1 cmap) as [c1|] eqn:E1; [|apply dget_none in E1; contradiction].
    destruct (dget pystr_eq_dec k2 cmap) as [c2|] eqn:E2; [|apply dget_none in E2; contradiction].
    subst c2. eapply cm_ok_inj; eauto.
  - set (alloc := match dget pystr_eq_dec k cmap with
          | Some c => Ok (c, cmap, j)
          | None => if j =? 91 then Err ValueError
                    else Ok (97 + j, dset pystr_eq_dec k (97 + j) cmap, if S j =? 123 then 65 else S j)
          end) in H.
    assert (HA : forall c cm j', alloc = Ok (c, cm, j') -> cm_ok cm j' /\ dget pystr_eq_dec k cm = Some c /\
       (forall k' c', dget pystr_eq_dec k' cmap = Some c' -> dget pystr_eq_dec k' cm = Some c') /\
       (forall k', In k' (dkeys cmap ++ k :: keys) -> In k' (dkeys cm ++ keys))).
    { intros c cm j'. unfold alloc. destruct (dget pystr_eq_dec k cmap) as [c0|] eqn:E.
      - intros HH; injection HH as <- <- <-. repeat split; auto; try apply Hok.
        intros k' Hin. rewrite in_app_iff in *. cbn [In] in Hin. destruct Hin as [Hin|[<-|Hin]]; auto.
        left. destruct (in_dec pystr_eq_dec k (dkeys cmap)) as [|Hn]; [assumption|]. apply (dget_none pystr_eq_dec) in Hn. congruence.
      - destruct (Nat.eqb_spec j 91) as [|Hne]; [discriminate|]. intros HH.
        assert (E2 : (c, cm, j') = (97 + j, dset pystr_eq_dec k (97 + j) cmap, if S j =? 123 then 65 else S j)) by congruence.
        assert (Ec : c = 97 + j) by congruence. assert (Em : cm = dset pystr_eq_dec k (97 + j) cmap) by congruence.
        assert (Ej : j' = if S j =? 123 then 65 else S j) by congruence. clear E2 HH. rewrite Ec, Em, Ej. clear Ec Em Ej.
        replace (S j =? 123) with false by (symmetry; apply Nat.eqb_neq; destruct Hok as (_ & Hle & _); lia).
        split; [apply cm_ok_add; assumption|]. split; [rewrite dget_dset; destruct (pystr_eq_dec k k); congruence|].
        split.
        + intros k' c' Hk'. rewrite dget_dset. destruct (pystr_eq_dec k' k); congruence.
        + intros k' Hin. apply dget_none in E. rewrite dkeys_dset_new by exact E.
          rewrite <- app_assoc. exact Hin. }
    destruct alloc as [[[c cm] j']|e]; [|discriminate].
    destruct (HA _ _ _ eq_refl) as (Hok' & Hkc & Hext & Hin'). clear HA.
    destruct sizes as [|sz0 sizes0] eqn:Es.
    + destruct (combine_loop [] keys cm j') as [[sub' szs']|] eqn:El; [|discriminate].
      injection H as <- <-. destruct (IH _ _ _ _ Hok' El) as (f & -> & Hf & Hinj & Hs1 & Hs2).
      exists f. repeat split.
      * cbn [map]. rewrite (Hf _ _ Hkc). reflexivity.
      * intros k' c' Hk'. apply Hf, Hext, Hk'.
      * intros k1 k2 H1 H2. apply Hinj; apply Hin'; assumption.
      * intros _. cbn. apply Hs1; reflexivity.
      * congruence.
    + rewrite <- Es in *. destruct (dget pystr_eq_dec k sizes) as [n|] eqn:En; [|discriminate].
      destruct (combine_loop sizes keys cm j') as [[sub' szs']|] eqn:El; [|discriminate].
      injection H as <- <-. destruct (IH _ _ _ _ Hok' El) as (f & -> & Hf & Hinj & Hs1 & Hs2).
      exists f. repeat split.
      * cbn [map]. rewrite (Hf _ _ Hkc). reflexivity.
      * intros k' c' Hk'. apply Hf, Hext, Hk'.
      * intros k1 k2 H1 H2. apply Hinj; apply Hin'; assumption.
      * congruence.
      * intros _. cbn [app]. constructor; [|apply Hs2; congruence]. cbn. rewrite (Hf _ _ Hkc). auto.
Qed.

Lemma combine_loop_ok_iff sizes keys cmap j : cm_ok cmap j ->
  is_ok (combine_loop sizes keys cmap j) = true <->
  length (nodup pystr_eq_dec (dkeys cmap ++ keys)) <= 91 /\
  (sizes = [] \/ forall k, In k keys -> dget pystr_eq_dec k sizes <> None).
Proof.
  revert cmap j; induction keys as [|k keys IH]; intros cmap j Hok; cbn [combine_loop].
  - cbn [is_ok]. split; [intros _|reflexivity]. split; [|right; intros k []].
    rewrite app_nil_r. destruct Hok as (Hj & Hle & Hnd & _). rewrite nodup_fixed_point by exact Hnd. lia.
  - assert (Hsz : forall A (a : A), is_ok (match sizes with [] => Ok a | _ => match dget pystr_eq_dec k sizes with Some n => Ok a | None => Err KeyError end end) = true
       <-> (sizes = [] \/ dget pystr_eq_dec k sizes <> None)).
    { intros A a. destruct sizes as [|s0 sz] eqn:Es; [cbn; tauto|]. rewrite <- Es.
      destruct (dget pystr_eq_dec k sizes); cbn; split; intros; try discriminate; try reflexivity.
      - right; discriminate.
      - destruct H; congruence. }
    destruct (dget pystr_eq_dec k cmap) as [c|] eqn:E.
    + assert (Hnd : nodup pystr_eq_dec (dkeys cmap ++ k :: keys) = nodup pystr_eq_dec (dkeys cmap ++ keys) \/ True) by auto.
      assert (HL : length (nodup pystr_eq_dec (dkeys cmap ++ k :: keys)) = length (nodup pystr_eq_dec (dkeys cmap ++ keys))).
      { apply Permutation_length. apply NoDup_Permutation; [apply NoDup_nodup..|].
        intros x. rewrite !nodup_In, !in_app_iff. cbn [In].
        assert (In k (dkeys cmap)).
        { destruct (in_dec pystr_eq_dec k (dkeys cmap)) as [|Hn]; [assumption|]. apply (dget_none pystr_eq_dec) in Hn. congruence. }
        intuition (subst; auto). }
      rewrite HL. specialize (IH cmap j Hok). 
      destruct sizes as [|s0 sz] eqn:Es.
      * destruct (combine_loop [] keys cmap j) as [[a b]|] eqn:El; cbn [is_ok] in *; rewrite <- ?El in *.
        -- split; [intros _|reflexivity]. split; [apply IH; reflexivity|left; reflexivity].
        -- split; [discriminate|]. intros [H1 _]. apply IH. split; [exact H1|left; reflexivity].
      * rewrite <- Es in *. assert (Hne : sizes <> []) by congruence.
        destruct (dget pystr_eq_dec k sizes) as [n|] eqn:En.
        -- destruct (combine_loop sizes keys cmap j) as [[a b]|] eqn:El; cbn [is_ok] in *.
           ++ split; [intros _|reflexivity]. destruct (proj1 IH eq_refl) as [H1 H2]. split; [exact H1|right].
              destruct H2; [contradiction|]. intros k' [<-|Hk']; [congruence|auto].
           ++ split; [discriminate|]. intros [H1 [H2|H2]]; [contradiction|]. apply IH. split; [exact H1|right].
              intros k' Hk'. apply H2. right; exact Hk'.
        -- cbn. split; [discriminate|]. intros [_ [H|H]]; [contradiction|]. exfalso. apply (H k); [left; reflexivity|exact En].
    + assert (HL : Permutation (nodup pystr_eq_dec (dkeys cmap ++ k :: keys))
                     (nodup pystr_eq_dec (dkeys (dset pystr_eq_dec k (97 + j) cmap) ++ keys))).
      { apply NoDup_Permutation; [apply NoDup_nodup..|]. intros x. apply dget_none in E.
        rewrite !nodup_In, dkeys_dset_new by exact E. rewrite !in_app_iff. cbn [In]. tauto. }
      apply Permutation_length in HL. rewrite HL. clear HL.
      destruct (Nat.eqb_spec j 91) as [Hj|Hj].
      * cbn. split; [discriminate|]. intros [H1 _]. exfalso.
        assert (Hincl : length (dkeys (dset pystr_eq_dec k (97 + j) cmap)) <= length (nodup pystr_eq_dec (dkeys (dset pystr_eq_dec k (97 + j) cmap) ++ keys))).
        { apply NoDup_incl_length; [apply dset_nodup; apply Hok|]. intros x Hx. apply nodup_In, in_or_app. left; exact Hx. }
        apply dget_none in E. rewrite dkeys_dset_new in Hincl by exact E. rewrite app_length in Hincl. cbn in Hincl.
        destruct Hok as (Hlen & _). 
        rewrite dkeys_dset_new in H1 by exact E. lia.
      * pose proof (cm_ok_add k Hok Hj E) as Hok'.
        replace (S j =? 123) with false by (symmetry; apply Nat.eqb_neq; destruct Hok as (_ & Hle & _); lia).
        specialize (IH _ _ Hok'). clear Hsz.
        destruct sizes as [|s0 sz] eqn:Es.
        -- match goal with |- context [combine_loop [] keys ?c ?j'] => change c with (dset pystr_eq_dec k (97 + j) cmap) end.
           destruct (combine_loop [] keys (dset pystr_eq_dec k (97 + j) cmap) (S j)) as [[a b]|] eqn:El; cbn [is_ok] in *.
           ++ split; [intros _|reflexivity]. split; [apply IH; reflexivity|left; reflexivity].
           ++ split; [discriminate|]. intros [H1 _]. apply IH. split; [exact H1|left; reflexivity].
        -- rewrite <- Es in *. assert (Hne : sizes <> []) by congruence.
           destruct (dget pystr_eq_dec k sizes) as [n|] eqn:En.
           ++ match goal with |- context [combine_loop sizes keys ?c ?j'] => change c with (dset pystr_eq_dec k (97 + j) cmap) end.
              destruct (combine_loop sizes keys (dset pystr_eq_dec k (97 + j) cmap) (S j)) as [[a b]|] eqn:El; cbn [is_ok] in *.
              ** split; [intros _|reflexivity]. destruct (proj1 IH eq_refl) as [H1 H2]. split; [exact H1|right].
                 destruct H2; [contradiction|]. intros k' [<-|Hk']; [congruence|auto].
              ** split; [discriminate|]. intros [H1 [H2|H2]]; [contradiction|]. apply IH. split; [exact H1|right].
                 intros k' Hk'. apply H2. right; exact Hk'.
           ++ cbn. split; [discriminate|]. intros [_ [H|H]]; [contradiction|]. exfalso. apply (H k); [left; reflexivity|exact En].
Qed.

Lemma cm_ok_nil : cm_ok [] 0.
Proof. repeat split; [cbn; lia|constructor|]. intros i k H. destruct i; discriminate. Qed.

Lemma collect_sizes_spec szs c n : In (c, n) szs ->
  (forall m, In (c, m) szs -> m = n) -> dget Nat.eq_dec c (collect_sizes szs) = Some n.
Proof.
  unfold collect_sizes.
  assert (G : forall d, (In (c, n) szs \/ dget Nat.eq_dec c d = Some n) -> (forall m, In (c, m) szs -> m = n) ->
    dget Nat.eq_dec c (fold_left (fun d p => dset Nat.eq_dec (fst p) (snd p) d) szs d) = Some n).
  { induction szs as [|[c0 n0] szs IH]; intros d H Hu; cbn [fold_left fst snd].
    - destruct H as [[]|H]; exact H.
    - assert (Hu' : forall m, In (c, m) szs -> m = n) by (intros m Hm; apply Hu; right; exact Hm).
      apply IH; [|exact Hu'].
      destruct H as [[H|H]|H].
      + injection H as -> ->. right. rewrite dget_dset. destruct (Nat.eq_dec c c); congruence.
      + left; exact H.
      + right. rewrite dget_dset. destruct (Nat.eq_dec c c0) as [->|]; [|exact H].
        f_equal. apply Hu. left; reflexivity. }
  intros H Hu. apply G; [left; exact H|exact Hu].
Qed.

Lemma combine_lengths ss : (length (dedup (map (@length nat) ss)) =? 1) = true <->
  exists s0 ss', ss = s0 :: ss' /\ forall s, In s ss -> length s = length s0.
Proof.
  destruct ss as [|s0 ss]; cbn [map dedup].
  - cbn. split; [discriminate|intros (s0 & ss' & H & _); discriminate].
  - rewrite Nat.eqb_eq. cbn [length].
    assert (G : forall l x, filter (fun y => negb (x =? y)) (dedup l) = [] <-> forall y, In y l -> y = x).
    { induction l as [|y l IH]; intros x; cbn [dedup filter]; [split; [intros _ y []|reflexivity]|].
      destruct (Nat.eqb_spec x y) as [->|Hne]; cbn [negb].
      - split.
        + intros H z [<-|Hz]; [reflexivity|]. 
          assert (Hf : filter (fun z => negb (y =? z)) (dedup l) = []).
          { rewrite <- H. clear. induction (dedup l) as [|a m IHm]; [reflexivity|]. cbn.
            destruct (y =? a) eqn:E; cbn; [exact IHm|]. rewrite E. cbn. f_equal. exact IHm. }
          apply IH; assumption.
        + intros H. assert (Hf : filter (fun z => negb (y =? z)) (dedup l) = []) by (apply IH; intros z Hz; apply H; right; exact Hz).
          rewrite Hf. reflexivity.
      - split; [discriminate|]. intros H. exfalso. apply Hne. symmetry. apply H. left; reflexivity. }
    split.
    + intros H. exists s0, ss. split; [reflexivity|]. intros s [<-|Hs]; [reflexivity|].
      apply (G (map (@length nat) ss)); [|apply in_map; exact Hs].
      destruct (filter _ _); [reflexivity|discriminate].
    + intros (s1 & ss' & H & Hs). injection H as <- <-.
      rewrite (proj2 (G _ _)); [reflexivity|]. intros y Hy. apply in_map_iff in Hy as (s & <- & Hin). apply Hs. right; exact Hin.
Qed.

Lemma combine_ok ss sizes sub sz : combine_subscripts ss sizes = Ok (sub, sz) ->
  (forall s, In s ss -> length s = length sub) /\
  (forall i j, i < length sub -> j < length sub ->
     (nth i sub 0 = nth j sub 0 <-> forall s, In s ss -> nth i s 0 = nth j s 0)) /\
  (sizes = [] -> sz = []) /\
  (sizes <> [] -> forall i, i < length sub ->
     exists n, dget pystr_eq_dec (map (fun s => nth i s 0) ss) sizes = Some n /\ dget Nat.eq_dec (nth i sub 0) sz = Some n).
Proof.
  unfold combine_subscripts. destruct (length (dedup (map (@length nat) ss)) =? 1) eqn:E; cbn [negb]; [|discriminate].
  apply combine_lengths in E as (s0 & ss' & Ess & Hlen). rewrite Ess at 1.
  destruct (combine_loop sizes _ [] 0) as [[sub' szs]|] eqn:El; cbn [bind fst snd]; [|discriminate].
  intros H; injection H as <- <-.
  destruct (combine_loop_spec _ _ cm_ok_nil El) as (f & Esub & _ & Hinj & Hs1 & Hs2). cbn [dkeys map app] in Hinj.
  assert (HL : length sub' = length s0) by (rewrite Esub, !map_length, seq_length; reflexivity).
  assert (Hnth : forall i, i < length s0 -> nth i sub' 0 = f (column 0 ss i)).
  { intros i Hi. rewrite Esub, map_map.
    rewrite nth_indep with (d' := f (column 0 ss 0)) by (rewrite map_length, seq_length; exact Hi).
    rewrite (map_nth (fun x => f (column 0 ss x)) (seq 0 (length s0)) 0 i), seq_nth by exact Hi. reflexivity. }
  assert (Hin : forall i, i < length s0 -> In (column 0 ss i) (map (column 0 ss) (seq 0 (length s0)))).
  { intros i Hi. apply in_map, in_seq. lia. }
  repeat split.
  - intros s Hs. rewrite HL. apply Hlen. exact Hs.
  - rewrite HL in *. intros H' s Hs. rewrite !Hnth in H' by assumption. apply Hinj in H'; [|apply Hin; assumption..].
    unfold column in H'. clear -H' Hs. induction ss as [|a ss IH]; [destruct Hs|]. cbn in H'. injection H' as H1 H2.
    destruct Hs as [<-|Hs]; auto.
  - rewrite HL in *. intros H'. rewrite !Hnth by assumption. f_equal. unfold column. apply map_ext_in. exact H'.
  - intros Hs. rewrite (Hs1 Hs). reflexivity.
  - intros Hne i Hi. rewrite HL in Hi. specialize (Hs2 Hne). rewrite Hnth by exact Hi.
    change (map (fun s => nth i s 0) ss) with (column 0 ss i).
    assert (G : exists n, In (f (column 0 ss i), n) szs /\ dget pystr_eq_dec (column 0 ss i) sizes = Some n).
    { specialize (Hin i Hi). clear -Hs2 Hin. induction Hs2 as [|k [c n] ks szs [H1 H2] HF IH]; [destruct Hin|].
      cbn in H1, H2. destruct Hin as [<-|Hin]; [exists n; subst; split; [left; reflexivity|exact H2]|].
      destruct (IH Hin) as (m & Hm & Hd). exists m. split; [right; exact Hm|exact Hd]. }
    destruct G as (n & Hn & Hd). exists n. split; [exact Hd|]. apply collect_sizes_spec; [exact Hn|].
    intros m Hm.
    assert (G2 : exists k, In k (map (column 0 ss) (seq 0 (length s0))) /\ f k = f (column 0 ss i) /\ dget pystr_eq_dec k sizes = Some m).
    { clear -Hs2 Hm. induction Hs2 as [|k [c n] ks szs [H1 H2] HF IH]; [destruct Hm|].
      cbn in H1, H2. destruct Hm as [Hm|Hm].
      - injection Hm as -> ->. exists k. split; [left; reflexivity|auto].
      - destruct (IH Hm) as (k' & Hk & Hf & Hd). exists k'. split; [right; exact Hk|auto]. }
    destruct G2 as (k & Hk & Hf & Hdk). apply Hinj in Hf; [|exact Hk|apply Hin; exact Hi]. subst k. congruence.
Qed.

Lemma combine_ok_iff ss sizes : is_ok (combine_subscripts ss sizes) = true <->
  exists s0 ss', ss = s0 :: ss' /\ (forall s, In s ss -> length s = length s0) /\
    length (nodup pystr_eq_dec (map (fun i => map (fun s => nth i s 0) ss) (seq 0 (length s0)))) <= 91 /\
    (sizes = [] \/ forall i, i < length s0 -> dget pystr_eq_dec (map (fun s => nth i s 0) ss) sizes <> None).
Proof.
  unfold combine_subscripts. destruct (length (dedup (map (@length nat) ss)) =? 1) eqn:E; cbn [negb].
  - apply combine_lengths in E as (s0 & ss' & Ess & Hlen). rewrite Ess at 1.
    pose proof (combine_loop_ok_iff sizes (map (column 0 ss) (seq 0 (length s0))) cm_ok_nil) as H. cbn [dkeys map app] in H.
    transitivity (is_ok (combine_loop sizes (map (column 0 ss) (seq 0 (length s0))) [] 0) = true).
    { destruct (combine_loop _ _ _ _) as [[a b]|]; cbn; tauto. }
    rewrite H. split.
    + intros [H1 H2]. exists s0, ss'. repeat split; auto.
      destruct H2 as [H2|H2]; [left; exact H2|right]. intros i Hi. apply H2. apply (in_map (column 0 ss)), in_seq. lia.
    + intros (s1 & ss1 & E1 & _ & H1 & H2). rewrite Ess in E1. injection E1 as <- <-. split; [exact H1|].
      destruct H2 as [H2|H2]; [left; exact H2|right]. intros k Hk. apply in_map_iff in Hk as (i & <- & Hi).
      apply in_seq in Hi. apply H2. lia.
  - cbn. split; [discriminate|]. intros (s0 & ss' & H1 & H2 & _).
    assert (true = false); [|discriminate]. rewrite <- E. symmetry. apply combine_lengths. eauto.
Qed.

(** Lengths that differ, and too many distinct columns, are reported as ValueError. *)
Lemma combine_len_error ss sizes s s' : In s ss -> In s' ss -> length s <> length s' ->
  combine_subscripts ss sizes = Err ValueError.
Proof.
  intros H1 H2 Hne. unfold combine_subscripts.
  destruct (length (dedup (map (@length nat) ss)) =? 1) eqn:E; [|reflexivity].
  apply combine_lengths in E as (s0 & ss' & _ & HL). exfalso. apply Hne. rewrite (HL s H1), (HL s' H2). reflexivity.
Qed.

Lemma combine_loop_err_empty keys cmap j e : combine_loop [] keys cmap j = Err e -> e = ValueError.
Proof.
  revert cmap j; induction keys as [|k keys IH]; intros cmap j; cbn [combine_loop]; [discriminate|].
  destruct (dget pystr_eq_dec k cmap) as [c|].
  - destruct (combine_loop [] keys cmap j) as [[a b]|e'] eqn:El; [discriminate|]. intros H; injection H as <-. eapply IH; eauto.
  - destruct (j =? 91); [congruence|].
    match goal with |- context [combine_loop [] keys ?c ?j'] => destruct (combine_loop [] keys c j') as [[a b]|e'] eqn:El end; [discriminate|].
    intros H; injection H as <-. eapply IH; eauto.
Qed.

Lemma combine_many_error ss s0 : (forall s, In s ss -> length s = length s0) -> In s0 ss ->
  91 < length (nodup pystr_eq_dec (map (fun i => map (fun s => nth i s 0) ss) (seq 0 (length s0)))) ->
  combine_subscripts ss [] = Err ValueError.
Proof.
  intros Hlen Hin Hbig. destruct (combine_subscripts ss []) as [[a b]|e] eqn:E.
  - exfalso. assert (H : is_ok (combine_subscripts ss []) = true) by (rewrite E; reflexivity).
    apply combine_ok_iff in H as (s1 & ss' & Ess & HL & H1 & _).
    assert (length s1 = length s0) by (apply Hlen; rewrite Ess; left; reflexivity). rewrite H in H1. lia.
  - revert E. unfold combine_subscripts. destruct (negb _); [congruence|]. destruct ss as [|s1 ss']; [congruence|].
    destruct (combine_loop [] _ [] 0) as [[a b]|e'] eqn:El; cbn [bind]; [discriminate|].
    intros H; injection H as <-. f_equal. eapply combine_loop_err_empty; eauto.
Qed.
