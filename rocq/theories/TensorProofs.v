(** compress_axes / decompress_axes: element-wise characterisation. *)
From Verif Require Import Base ListAux Alg PermSpec PermModel PermSign PermProofs TrilProofs SpinProofs StringPermProofs
  ArrModel ArrProofs TensorModel TensorSpec GroupProofs PackProofs.
From Coq Require Import Sorted.
Set Implicit Arguments.

Definition tril (diag : bool) (nc : nat * nat) : list (list nat) := tril_tuples (fst nc) (snd nc) diag.
Definition shapes (ncs : list (nat * nat)) : list (list nat) := map (fun nc => repeat (fst nc) (snd nc)) ncs.
Definition dims (diag : bool) (ncs : list (nat * nat)) : list nat := map (fun nc => length (tril diag nc)) ncs.
Definition canon (diag : bool) (ncs : list (nat * nat)) (ks : list nat) : list (list nat) :=
  map (fun p => nth (snd p) (tril diag (fst p)) []) (combine ncs ks).

Lemma group_ncs_pos s shape : Forall (fun nc => 1 <= snd nc) (group_ncs s shape).
Proof.
  unfold group_ncs. apply Forall_map, Forall_forall. intros g Hg. cbn. apply groups_sorted in Hg as [_ Hg].
  destruct g; [contradiction|cbn; lia].
Qed.

Lemma tril_mapM ncs diag : Forall (fun nc => 1 <= snd nc) ncs ->
  mapM (fun nc => tril_indices_ndim (fst nc) (snd nc) diag) ncs = Ok (map (fun nc => trilarr (fst nc) (snd nc) diag) ncs).
Proof.
  intros H. apply mapM_ok. intros nc Hnc. rewrite Forall_forall in H. apply tril_indices_ok. auto.
Qed.

Lemma shapes_flat ncs : flat_map (fun nc : nat * nat => repeat (fst nc) (snd nc)) ncs = concat (shapes ncs).
Proof. apply flat_map_concat_map. Qed.

Lemma prodn_shapes ncs : map prodn (shapes ncs) = map (fun nc => fst nc ^ snd nc) ncs.
Proof. unfold shapes. rewrite map_map. apply map_ext. intros nc. apply prodn_repeat. Qed.

Lemma inb_map_combine {A} (f : A -> nat) (l : list A) ks : inb (map f l) ks ->
  length ks = length l /\ Forall (fun p => snd p < f (fst p)) (combine l ks).
Proof.
  intros H. split; [rewrite (inb_length H), map_length; reflexivity|]. remember (map f l) as fl eqn:E.
  revert l E. induction H as [|k n ks fl Hk H IH]; intros [|x l] E; try discriminate; cbn; constructor.
  - cbn in E. injection E as -> _. exact Hk.
  - apply IH. cbn in E. injection E as _ E. exact E.
Qed.

Lemma tril_inb diag nc k : k < length (tril diag nc) -> inb (repeat (fst nc) (snd nc)) (nth k (tril diag nc) []).
Proof. intros Hk. destruct (tril_nth _ _ _ Hk) as (HL & Hlt & _). apply inb_repeat. auto. Qed.

Lemma canon_inb diag ncs ks : inb (dims diag ncs) ks -> Forall2 inb (shapes ncs) (canon diag ncs ks).
Proof.
  unfold dims. revert ks; induction ncs as [|nc ncs IH]; intros ks H; inversion H; subst; cbn; constructor.
  - apply tril_inb. assumption.
  - apply IH. assumption.
Qed.

Lemma columns_trilarr n c diag : 1 <= c -> columns (trilarr n c diag) = tril_tuples n c diag.
Proof.
  intros Hc. unfold trilarr. rewrite columns_pick by (destruct c; [lia|discriminate]).
  rewrite <- map_id. apply map_ext_in. intros t Ht. apply tril_tuples_in in Ht as [<- _]. apply pick_seq.
Qed.

Lemma combine_map_r {A B} (f : A -> B) l : combine l (map f l) = map (fun x => (x, f x)) l.
Proof. induction l as [|x l IH]; cbn; congruence. Qed.

(** compress_axes picks, for every tuple of compressed positions, the element at the corresponding
    canonical index. *)
Lemma compress_ok {A} (d : A) s (a : arr A) diag : extents_ok s (shp a) ->
  compress_axes d s a diag = Ok (tab (dims diag (group_ncs s (shp a)))
     (fun ks => aget d a (unperm (concat (groups s)) (concat (canon diag (group_ncs s (shp a)) ks))))).
Proof.
  intros Hext. unfold compress_axes. rewrite rename_ok. cbn [bind]. fold (ren s). rewrite (@group_axes_ok A d s a Hext). cbn [bind].
  pose proof (group_ncs_pos s (shp a)) as Hpos. rewrite tril_mapM by exact Hpos. cbn [bind]. f_equal.
  set (ncs := group_ncs s (shp a)) in *. unfold take_mesh. rewrite combine_map_r.
  match goal with |- context [map (@length nat) ?f] =>
    replace f with (map (fun x => map (ravel (repeat (fst x) (snd x))) (columns (trilarr (fst x) (snd x) diag))) ncs)
      by (rewrite map_map; reflexivity) end.
  assert (Hd : map (@length nat) (map (fun x => map (ravel (repeat (fst x) (snd x))) (columns (trilarr (fst x) (snd x) diag))) ncs) = dims diag ncs).
  { rewrite map_map. apply map_ext_in. intros nc Hnc. rewrite map_length, columns_trilarr; [reflexivity|].
    rewrite Forall_forall in Hpos. auto. }
  rewrite Hd. apply tab_ext. intros ks Hks. unfold aget at 1. cbn [shp dat].
  pose proof (canon_inb _ _ Hks) as Hci.
  assert (Hr : map (fun ik => nth (snd ik) (fst ik) 0)
        (combine (map (fun x => map (ravel (repeat (fst x) (snd x))) (columns (trilarr (fst x) (snd x) diag))) ncs) ks) =
        map (fun p => ravel (fst p) (snd p)) (combine (shapes ncs) (canon diag ncs ks))).
  { clear Hd Hci. revert ks Hks. induction Hpos as [|nc ncs Hc Hpos IH]; intros ks Hks; inversion Hks; subst; [reflexivity|].
    unfold shapes, canon in *. cbn [map combine]. cbn [fst snd]. rewrite columns_trilarr by exact Hc. fold (tril diag nc). f_equal.
    - rewrite (nth_map_lt _ _ 0 []) by assumption. reflexivity.
    - apply IH. assumption. }
  rewrite Hr, <- prodn_shapes, <- ravel_concat by exact Hci. rewrite shapes_flat.
  exact (@aget_tab A d (concat (shapes ncs)) (fun idx => aget d a (unperm (concat (groups s)) idx)) _ (inb_concat Hci)).
Qed.

Section Dec.
  Variable K : rng.
  Local Open Scope rng_scope.

  Definition tup_sign (symc : pystr) (tup : list (list (list nat) * Z)) : Z :=
    fold_right Z.mul 1%Z (map (fun p => if snd p =? ch_minus then snd (fst p) else 1%Z)%nat (combine tup symc)).
  Definition tup_flats (ncs : list (nat * nat)) (tup : list (list (list nat) * Z)) : list (list nat) :=
    map (fun p => map (ravel (repeat (fst (fst p)) (snd (fst p)))) (columns (fst (snd p)))) (combine ncs tup).
  Definition qk (q : nat * list nat * Z) := fst (fst q).
  Definition qu (q : nat * list nat * Z) := snd (fst q).
  Definition qs (q : nat * list nat * Z) := snd q.
  Definition sign_of (L : list (nat * list nat * Z)) : Z := fold_right Z.mul 1%Z (map qs L).

  Definition agree (diag : bool) (ncs : list (nat * nat)) (symc : pystr) tup ks L : Prop :=
    Forall2 (fun x q => gw diag (fst x) (snd x) q) (combine ncs symc) L /\
    at_idx (tup_flats ncs tup) ks = map (fun p => ravel (fst p) (snd p)) (combine (shapes ncs) (map qu L)) /\
    ks = map qk L /\ tup_sign symc tup = sign_of L.

  Lemma flats_len diag ncs tup : Forall (fun nc => 1 <= snd nc)%nat ncs ->
    Forall2 (fun q nc => In q (permutations_with_signs (trilarr (fst nc) (snd nc) diag))) tup ncs ->
    map (@length nat) (tup_flats ncs tup) = dims diag ncs.
  Proof.
    intros Hpos H. induction H as [|q nc tup ncs Hq H IH]; [reflexivity|]. inversion Hpos as [|? ? Hc Hpos']; subst.
    cbn. f_equal; [|apply IH; exact Hpos'].
    unfold trilarr in Hq. rewrite pws_map in Hq. apply in_map_iff in Hq as ([p s0] & <- & Hp). cbn [fst snd].
    apply pws_seq_in in Hp as [Hp _].
    rewrite columns_pick; [rewrite !map_length; reflexivity|].
    intros ->. apply Permutation_length in Hp. rewrite seq_length in Hp. cbn in Hp. lia.
  Qed.

  Lemma agree_fwd diag ncs symc tup ks : length symc = length ncs -> Forall (fun nc => 1 <= snd nc)%nat ncs ->
    Forall2 (fun q nc => In q (permutations_with_signs (trilarr (fst nc) (snd nc) diag))) tup ncs ->
    inb (dims diag ncs) ks -> exists L, agree diag ncs symc tup ks L.
  Proof.
    intros HL Hpos H. revert symc ks HL. induction H as [|q nc tup ncs Hq H IH]; intros symc ks HL Hks.
    - inversion Hks; subst. destruct symc; [|discriminate]. exists []. repeat split. constructor.
    - inversion Hpos as [|? ? Hc Hpos']; subst. destruct symc as [|sy symc]; [discriminate|].
      inversion Hks as [|k m ks' dm Hk Hks']; subst.
      destruct (IH Hpos' symc ks' ltac:(cbn in HL; lia) Hks') as (L & H1 & H2 & H3 & H4).
      unfold trilarr in Hq. rewrite pws_map in Hq. apply in_map_iff in Hq as ([p s0] & <- & Hp). cbn [fst snd] in *.
      destruct (pws_seq_in _ _ _ Hp) as [HP _].
      assert (Hne : p <> []) by (intros ->; apply Permutation_length in HP; rewrite seq_length in HP; cbn in HP; lia).
      exists ((k, pick p (nth k (tril diag nc) []), if (sy =? ch_minus)%nat then s0 else 1%Z) :: L).
      split; [|split; [|split]].
      + cbn [combine]. constructor; [|exact H1]. cbn [fst snd gw]. split; [exact Hk|]. exists p, s0. auto.
      + cbn. f_equal; [|exact H2]. rewrite columns_pick by exact Hne.
        rewrite map_map. rewrite (nth_map_lt _ _ 0%nat []) by exact Hk. reflexivity.
      + cbn. f_equal. exact H3.
      + cbn. unfold tup_sign in H4. rewrite H4. reflexivity.
  Qed.

  Lemma agree_bwd diag ncs symc L : length symc = length ncs -> Forall (fun nc => 1 <= snd nc)%nat ncs ->
    Forall2 (fun x q => gw diag (fst x) (snd x) q) (combine ncs symc) L ->
    exists tup, Forall2 (fun q nc => In q (permutations_with_signs (trilarr (fst nc) (snd nc) diag))) tup ncs /\
      inb (dims diag ncs) (map qk L) /\ agree diag ncs symc tup (map qk L) L.
  Proof.
    revert symc L. induction ncs as [|nc ncs IH]; intros symc L HL Hpos H.
    - destruct symc; [|discriminate]. inversion H; subst. exists []. repeat split; constructor.
    - destruct symc as [|sy symc]; [discriminate|]. inversion Hpos as [|? ? Hc Hpos']; subst.
      cbn [combine] in H. inversion H as [|? q ? L' Hq HL']; subst.
      destruct (IH symc L' ltac:(cbn in HL; lia) Hpos' HL') as (tup & Ht & Hk & H1 & H2 & H3 & H4).
      destruct q as [[k u] sg]. cbn [fst snd gw] in Hq. destruct Hq as (Hk' & p & s0 & Hp & Hu & Hsg).
      destruct (pws_seq_in _ _ _ Hp) as [HP _].
      assert (Hne : p <> []) by (intros ->; apply Permutation_length in HP; rewrite seq_length in HP; cbn in HP; lia).
      exists ((map (fun d => map (fun t => nth d t 0%nat) (tril_tuples (fst nc) (snd nc) diag)) p, s0) :: tup).
      split; [|split; [|split; [|split; [|split]]]].
      + constructor; [|exact Ht]. unfold trilarr. rewrite pws_map. apply in_map_iff. exists (p, s0). auto.
      + cbn. constructor; [exact Hk'|exact Hk].
      + exact H.
      + cbn. f_equal; [|exact H2]. rewrite columns_pick by exact Hne.
        rewrite map_map. rewrite (nth_map_lt _ _ 0%nat []) by exact Hk'. rewrite Hu. reflexivity.
      + reflexivity.
      + cbn. unfold tup_sign in H4. rewrite H4. rewrite Hsg. reflexivity.
  Qed.

  Definition tup_writes (ncs : list (nat * nat)) (symc : pystr) (flat : list K) (sh : list nat) (tup : list (list (list nat) * Z)) :=
    put_writes r0 (map (ravel sh) (product (tup_flats ncs tup))) (map (fun v => v * sgn K (tup_sign symc tup)) flat).

  Lemma put_once_eq ncs symc flat a tup :
    put_once K ncs symc flat a tup = mkarr (shp a) (writes (dat a) (tup_writes ncs symc flat (shp a) tup)).
  Proof. reflexivity. Qed.

  Lemma put_all ncs symc flat tups a :
    fold_left (put_once K ncs symc flat) tups a =
    mkarr (shp a) (writes (dat a) (flat_map (tup_writes ncs symc flat (shp a)) tups)).
  Proof.
    revert a; induction tups as [|tup tups IH]; intros a; cbn [fold_left flat_map].
    - destruct a; reflexivity.
    - rewrite IH, put_once_eq. cbn [shp dat]. rewrite writes_app. reflexivity.
  Qed.

  Lemma Forall2_inb_gw diag ncs symc L : length symc = length ncs ->
    Forall2 (fun x q => gw diag (fst x) (snd x) q) (combine ncs symc) L -> Forall2 inb (shapes ncs) (map qu L).
  Proof.
    revert symc L; induction ncs as [|nc ncs IH]; intros symc L HL H; destruct symc as [|sy symc]; try discriminate; cbn in *.
    - inversion H; subst. constructor.
    - inversion H as [|? [[k u] sg] ? L' Hq HL']; subst. cbn. constructor; [apply (gw_inb Hq)|].
      apply (IH symc); [lia|exact HL'].
  Qed.

  Lemma writes_char diag ncs symc flat : length symc = length ncs -> Forall (fun nc => 1 <= snd nc)%nat ncs ->
    length flat = prodn (dims diag ncs) ->
    forall pos v,
    In (pos, v) (flat_map (tup_writes ncs symc flat (map (fun nc => fst nc ^ snd nc)%nat ncs))
      (product (map (@permutations_with_signs (list nat)) (map (fun nc => trilarr (fst nc) (snd nc) diag) ncs)))) <->
    exists L, Forall2 (fun x q => gw diag (fst x) (snd x) q) (combine ncs symc) L /\
      pos = ravel (concat (shapes ncs)) (concat (map qu L)) /\
      v = nth (ravel (dims diag ncs) (map qk L)) flat r0 * sgn K (sign_of L).
  Proof.
    intros HL Hpos Hflat pos v.
    assert (Htups : forall tup, In tup (product (map (@permutations_with_signs (list nat)) (map (fun nc => trilarr (fst nc) (snd nc) diag) ncs)))
       <-> Forall2 (fun q nc => In q (permutations_with_signs (trilarr (fst nc) (snd nc) diag))) tup ncs).
    { intros tup. rewrite product_in, map_map. clear. split.
      - revert tup; induction ncs as [|nc ncs IH]; intros tup H; inversion H; subst; constructor; auto.
      - induction 1; cbn; constructor; auto. }
    assert (Hone : forall tup, Forall2 (fun q nc => In q (permutations_with_signs (trilarr (fst nc) (snd nc) diag))) tup ncs ->
      (In (pos, v) (tup_writes ncs symc flat (map (fun nc => fst nc ^ snd nc)%nat ncs) tup) <->
       exists ks, inb (dims diag ncs) ks /\ pos = ravel (map (fun nc => fst nc ^ snd nc)%nat ncs) (at_idx (tup_flats ncs tup) ks) /\
         v = nth (ravel (dims diag ncs) ks) flat r0 * sgn K (tup_sign symc tup))).
    { intros tup Ht. unfold tup_writes. rewrite product_at_idx, (@flats_len _ _ _ Hpos Ht), map_map.
      rewrite put_writes_in by (rewrite !map_length, all_idx_length; exact Hflat).
      rewrite map_length, all_idx_length. split.
      - intros (k & Hk & -> & ->). destruct (@ravel_surj (dims diag ncs) k Hk) as (ks & Hks & <-). exists ks.
        split; [exact Hks|]. split.
        + rewrite (nth_map_lt _ _ 0%nat []) by (rewrite all_idx_length; exact Hk). rewrite all_idx_nth by exact Hks. reflexivity.
        + rewrite (nth_map_lt _ _ r0 r0) by (rewrite Hflat; exact Hk). reflexivity.
      - intros (ks & Hks & -> & ->). exists (ravel (dims diag ncs) ks). pose proof (ravel_lt Hks) as Hk. split; [exact Hk|]. split.
        + rewrite (nth_map_lt _ _ 0%nat []) by (rewrite all_idx_length; exact Hk). rewrite all_idx_nth by exact Hks. reflexivity.
        + rewrite (nth_map_lt _ _ r0 r0) by (rewrite Hflat; exact Hk). reflexivity. }
    rewrite in_flat_map. split.
    - intros (tup & Ht & Hin). apply Htups in Ht. apply (Hone _ Ht) in Hin as (ks & Hks & -> & ->).
      destruct (@agree_fwd _ _ _ _ _ HL Hpos Ht Hks) as (L & H1 & H2 & H3 & H4). exists L. split; [exact H1|]. split.
      + rewrite H2, <- prodn_shapes. symmetry. apply ravel_concat. exact (@Forall2_inb_gw _ _ _ _ HL H1).
      + rewrite H3, H4. reflexivity.
    - intros (L & H1 & -> & ->). destruct (@agree_bwd _ _ _ _ HL Hpos H1) as (tup & Ht & Hks & _ & H2 & _ & H4).
      exists tup. split; [apply Htups; exact Ht|]. apply (Hone _ Ht). exists (map qk L). split; [exact Hks|]. split.
      + rewrite H2, <- prodn_shapes. apply ravel_concat. exact (@Forall2_inb_gw _ _ _ _ HL H1).
      + rewrite H4. reflexivity.
  Qed.
End Dec.

(** Inverse axes permutation. *)
Lemma argsort_inverse p : Permutation (seq 0 (length p)) p ->
  Permutation (seq 0 (length p)) (argsort p) /\ (forall i, i < length p -> nth (nth i p 0) (argsort p) 0 = i) /\
  (forall idx, length idx = length p -> unperm (argsort p) idx = pick p idx) /\
  (forall sh, length sh = length p -> map (fun k => nth k (pick p sh) 0) (argsort p) = sh).
Proof.
  intros Hp. pose proof (argsort_perm p) as H1. pose proof (Permutation_length H1) as HLa. rewrite seq_length in HLa.
  pose proof (@perm_seq_nodup _ _ Hp) as Hnd.
  set (inv := map (fun v => rank_in p v) (seq 0 (length p))).
  assert (Hrk : forall v, v < length p -> rank_in p v < length p /\ nth (rank_in p v) p 0 = v).
  { intros v Hv. unfold rank_in. destruct (index_of_in p v) as [j Hj]; [apply (perm_seq_lt _ v Hp); exact Hv|].
    rewrite Hj. apply index_of_nth in Hj. exact Hj. }
  assert (Einv : argsort p = inv).
  { apply argsort_unique.
    - unfold inv. apply NoDup_Permutation; [apply seq_NoDup| |].
      + apply NoDup_map_inj; [apply seq_NoDup|]. intros x y Hx Hy E. apply in_seq in Hx, Hy.
        destruct (Hrk x ltac:(lia)) as [_ <-], (Hrk y ltac:(lia)) as [_ <-]. rewrite E. reflexivity.
      + intros i. rewrite in_seq, in_map_iff. split.
        * intros Hi. exists (nth i p 0). unfold rank_in. rewrite index_of_nodup by (try assumption; lia).
          split; [reflexivity|]. apply in_seq. split; [lia|]. apply (perm_seq_lt _ _ Hp). apply nth_In. lia.
        * intros (v & <- & Hv). apply in_seq in Hv. destruct (Hrk v ltac:(lia)). lia.
    - unfold inv.
      assert (G : forall l, (forall x, In x l -> x < length p) -> StronglySorted lt l ->
         StronglySorted (lexk (fun i => nth i p 0)) (map (rank_in p) l)).
      { induction l as [|x l IH]; intros Hl Hs; cbn; constructor; inversion Hs as [|? ? Hs' Hf]; subst.
        - apply IH; [intros y Hy; apply Hl; right; exact Hy|exact Hs'].
        - apply Forall_map, Forall_forall. intros y Hy. rewrite Forall_forall in Hf. left.
          destruct (Hrk x (Hl x (or_introl eq_refl))) as [_ ->], (Hrk y (Hl y (or_intror Hy))) as [_ ->]. auto. }
      apply G; [intros x Hx; apply in_seq in Hx; lia|apply seq_sorted]. }
  assert (Hnth : forall i, i < length p -> nth (nth i p 0) (argsort p) 0 = i).
  { intros i Hi. rewrite Einv. unfold inv. rewrite nth_map_seq by (apply (perm_seq_lt _ _ Hp), nth_In; exact Hi).
    unfold rank_in. rewrite index_of_nodup by assumption. reflexivity. }
  split; [exact H1|]. split; [exact Hnth|]. split.
  - intros idx HL. unfold unperm, pick. rewrite <- HLa.
    rewrite <- (map_nth_seq 0 p) at 2. rewrite map_map. apply map_ext_in. intros i Hi. apply in_seq in Hi.
    rewrite <- (Hnth i) at 1 by lia. rewrite index_of_nodup; [reflexivity| |].
    + apply (@perm_seq_nodup _ _ H1).
    + rewrite <- HLa. apply (perm_seq_lt _ _ Hp), nth_In. lia.
  - intros sh HL. rewrite Einv. unfold inv. rewrite map_map.
    transitivity (map (fun k => nth k sh 0) (seq 0 (length p))); [|rewrite <- HL; apply map_nth_seq].
    apply map_ext_in. intros v Hv. apply in_seq in Hv. destruct (Hrk v ltac:(lia)) as [Ha Hb].
    unfold pick. rewrite (nth_map_lt (fun j => nth j sh 0) p 0 0 Ha), Hb. reflexivity.
Qed.

Lemma symmetry_compress_length counts symm m symc : symmetry_compress counts symm m = Ok symc -> length symc = length counts.
Proof.
  revert m symc; induction counts as [|c counts IH]; intros m symc H; cbn in H.
  - injection H as <-. reflexivity.
  - destruct (_ =? _); [|discriminate]. destruct (symmetry_compress counts symm (m + c)) as [r|] eqn:E; [|discriminate].
    cbn in H. injection H as <-. cbn. f_equal. apply (IH _ _ E).
Qed.

Lemma unique_repeat (v : nat) n l : (forall x, In x l -> x = v) -> length l = n -> n <> 0 -> length (dedup l) = 1.
Proof.
  intros H HL Hn. destruct l as [|x l]; [cbn in HL; lia|]. cbn [dedup]. cbn [length]. f_equal.
  destruct (filter (fun y => negb (x =? y)) (dedup l)) as [|y r] eqn:E; [reflexivity|]. exfalso.
  assert (Hy : In y (y :: r)) by (left; reflexivity). rewrite <- E, filter_In in Hy. destruct Hy as [Hy Hne].
  rewrite dedup_in in Hy. rewrite (H x (or_introl eq_refl)), (H y (or_intror Hy)), Nat.eqb_refl in Hne. discriminate.
Qed.

Section Dec2.
  Variable K : rng.
  Local Open Scope rng_scope.
  Add Ring Kring : (rth K).

  (** Blocks of an index tuple. *)
  Definition blocks (s : pystr) (idx : list nat) : list (list nat) := map (fun g => pick g idx) (groups s).

  Lemma blocks_inb s shape idx : extents_ok s shape -> inb shape idx -> Forall2 inb (shapes (group_ncs s shape)) (blocks s idx).
  Proof.
    intros Hext Hi. unfold shapes, group_ncs, blocks. rewrite map_map. cbn [fst snd].
    pose proof (fun g H => @groups_sorted s g H) as Hs. pose proof (fun g i H1 H2 => @groups_in s g i H1 H2) as Hin.
    assert (G : forall gs, (forall g, In g gs -> In g (groups s)) ->
      Forall2 inb (map (fun g => repeat (nth (hd 0%nat g) shape 0%nat) (length g)) gs) (map (fun g => pick g idx) gs)).
    { induction gs as [|g gs IH]; intros Hgs; cbn; constructor.
      - apply inb_repeat. split; [apply pick_length|]. intros x Hx. unfold pick in Hx. apply in_map_iff in Hx as (i & <- & Hi').
        specialize (Hgs g (or_introl eq_refl)). destruct (Hin g i Hgs Hi') as [Hlt Hiff].
        destruct Hext as [HL He].
        replace (nth (hd 0%nat g) shape 0%nat) with (nth i shape 0%nat); [apply inb_nth; [exact Hi|lia]|].
        destruct (Hs g Hgs) as [_ Hne]. destruct g as [|i0 g]; [contradiction|]. cbn [hd].
        destruct (proj1 (Hiff i0) (or_introl eq_refl)) as [H0 E]. apply He; [exact Hlt|exact H0|congruence].
      - apply IH. intros g' Hg'; apply Hgs; right; exact Hg'. }
    apply G. auto.
  Qed.

  Lemma blocks_concat s idx : concat (blocks s idx) = pick (concat (groups s)) idx.
  Proof. symmetry. apply pick_concat. Qed.

  Lemma ravel_blocks_inj ss us vs : Forall2 inb ss us -> Forall2 inb ss vs ->
    ravel (concat ss) (concat us) = ravel (concat ss) (concat vs) -> us = vs.
  Proof.
    intros Hu Hv E. apply ravel_inj in E; [|apply inb_concat; exact Hu|apply inb_concat; exact Hv].
    revert vs Hv E; induction Hu as [|s u ss us Hs Hu IH]; intros vs Hv E; inversion Hv as [|? v ? vs' Hs' Hv']; subst; [reflexivity|].
    cbn in E. assert (HL : length u = length v) by (rewrite (inb_length Hs), (inb_length Hs'); reflexivity).
    assert (Eu : u = v /\ concat us = concat vs').
    { clear -E HL. revert v HL E; induction u as [|x u IH]; intros [|y v] HL E; try discriminate; [auto|].
      cbn in *. injection E as -> E. destruct (IH v ltac:(lia) E) as [-> ?]. auto. }
    destruct Eu as [-> Eu]. f_equal. apply IH; assumption.
  Qed.

  (** Element-wise meaning of decompress_axes. *)
  Lemma decompress_ok s (flat : arr K) shape diag symmetry symc :
    extents_ok s shape ->
    symmetry_compress (map snd (group_ncs s shape)) (match symmetry with None => repeat ch_minus (length s) | Some y => y end) 0 = Ok symc ->
    length (dat flat) = prodn (dims diag (group_ncs s shape)) ->
    exists D, decompress_axes K s flat shape diag symmetry = Ok D /\ shp D = shape /\ wf D /\
      forall idx, inb shape idx ->
        (forall L, Forall2 (fun x q => gw diag (fst x) (snd x) q) (combine (group_ncs s shape) symc) L ->
           (forall L', Forall2 (fun x q => gw diag (fst x) (snd x) q) (combine (group_ncs s shape) symc) L' ->
              map qu L' = map qu L -> map qk L' = map qk L /\ sign_of L' = sign_of L) ->
           map qu L = blocks s idx ->
           aget r0 D idx = nth (ravel (dims diag (group_ncs s shape)) (map qk L)) (dat flat) r0 * sgn K (sign_of L)) /\
        ((forall L, Forall2 (fun x q => gw diag (fst x) (snd x) q) (combine (group_ncs s shape) symc) L -> map qu L <> blocks s idx) ->
           aget r0 D idx = 0).
  Proof.
    intros Hext Hsymc Hflat. pose proof (groups_perm s) as HP. pose proof (group_ncs_pos s shape) as Hpos.
    unfold decompress_axes. rewrite rename_ok. cbn [bind]. fold (ren s).
    rewrite (@group_axes_ok K r0 s (full shape r0)) by exact Hext. cbn [bind]. cbn [full shp].
    rewrite Hsymc. cbn [bind]. rewrite tril_mapM by exact Hpos. cbn [bind]. rewrite put_all. cbn [shp dat].
    pose proof (symmetry_compress_length _ _ _ Hsymc) as HLs. rewrite map_length in HLs.
    set (ncs := group_ncs s shape) in *.
    cbn [tab dat].
    match goal with |- context [writes ?z ?w] => set (Z0 := z); set (WS := w) end. unfold reshape. cbn [shp dat].
    rewrite shapes_flat, prodn_concat, prodn_shapes, Nat.eqb_refl. cbn [bind].
    pose proof (@perm_seq_length _ _ HP) as HLc.
    assert (HP' : Permutation (seq 0 (length (concat (groups s)))) (concat (groups s))) by (rewrite HLc; exact HP).
    destruct (argsort_inverse HP') as (Ha & Hb & Hc & Hd).
    assert (Hsh : concat (shapes ncs) = pick (concat (groups s)) shape).
    { rewrite <- shapes_flat. symmetry. apply (group_shape Hext). }
    assert (HLsh : length (concat (shapes ncs)) = length (concat (groups s))) by (rewrite Hsh; apply pick_length).
    rewrite transpose_ok by (cbn [shp]; rewrite HLsh; exact Ha). cbn [shp].
    assert (Hshape : map (fun k => nth k (concat (shapes ncs)) 0%nat) (argsort (concat (groups s))) = shape).
    { rewrite Hsh. apply Hd. destruct Hext as [HL _]. rewrite HLc. exact HL. }
    rewrite Hshape. eexists. split; [reflexivity|]. split; [reflexivity|]. split; [apply tab_wf|].
    intros idx Hi.
    assert (HLi : length idx = length (concat (groups s))).
    { destruct Hext as [HL _]. rewrite (inb_length Hi), HLc. exact HL. }
    match goal with |- context [aget r0 (tab shape ?f) idx] => rewrite (@aget_tab K r0 shape f idx Hi) end.
    rewrite (Hc idx HLi). unfold aget. cbn [shp dat]. rewrite <- blocks_concat.
    pose proof (blocks_inb Hext Hi) as Hbi. fold ncs in Hbi.
    pose proof (@writes_char K diag ncs symc (dat flat) HLs Hpos Hflat) as Hwc.
    assert (HlenZ : length Z0 = prodn (concat (shapes ncs))).
    { unfold Z0. rewrite map_length, all_idx_length, shapes_flat. reflexivity. }
    assert (HZ : forall k, nth k Z0 r0 = 0).
    { intros k. unfold Z0. destruct (Nat.lt_ge_cases k (length Z0)) as [Hk|Hk].
      - rewrite (nth_map_lt _ _ r0 []) by (unfold Z0 in Hk; rewrite map_length in Hk; exact Hk). apply aget_full.
      - apply nth_overflow. exact Hk. }
    assert (Hcore : forall L, Forall2 (fun x q => gw diag (fst x) (snd x) q) (combine ncs symc) L ->
       ravel (concat (shapes ncs)) (concat (blocks s idx)) = ravel (concat (shapes ncs)) (concat (map qu L)) -> map qu L = blocks s idx).
    { intros L H1 E. symmetry. apply (@ravel_blocks_inj _ _ _ Hbi (@Forall2_inb_gw _ _ _ _ HLs H1) E). }
    split.
    - intros L H1 Huniq H2. apply writes_in.
      + rewrite HlenZ. apply ravel_lt, inb_concat. exact Hbi.
      + apply Hwc. exists L. rewrite H2. auto.
      + intros v' Hv'. apply Hwc in Hv' as (L' & H1' & E & ->). destruct (Huniq L' H1') as [-> ->]; [|reflexivity].
        rewrite H2. apply Hcore; assumption.
    - intros Hno. rewrite writes_notin; [apply HZ|].
      intros Hin. apply in_map_iff in Hin as ([pos v] & E & Hin). cbn in E. subst pos.
      apply Hwc in Hin as (L & H1 & E & _). apply (Hno L H1). apply Hcore; assumption.
  Qed.
End Dec2.
