(** Proofs about relative slices and the construction of orbital spaces. *)
From Coq Require Import QArith Sorted Lqa.
From Verif Require Import Base ListAux SpaceModel SpaceSpec SpaceProofs.
Set Implicit Arguments.
Local Open Scope nat_scope.

Lemma known_dec c : {known_char c} + {~ known_char c}.
Proof. apply in_dec, Nat.eq_dec. Qed.

Lemma nth_error_skipn {A} n (l : list A) i : nth_error (skipn n l) i = nth_error l (n + i).
Proof. revert l; induction n as [|n IH]; intros [|x l]; cbn; try reflexivity; [destruct i; reflexivity|apply IH]. Qed.
Lemma nth_error_firstn {A} n (l : list A) i : i < n -> nth_error (firstn n l) i = nth_error l i.
Proof.
  revert l i; induction n as [|n IH]; intros [|x l] i H; cbn; try reflexivity; [lia|].
  destruct i; cbn; [reflexivity|]. apply IH. lia.
Qed.

(** An absolute slice. *)
Lemma slice_selects {A} s c sl (x : list A) : accepted s -> sp_slice s c = Ok sl -> length x = nmo s ->
  exists m, sp_mask s c = Ok m /\ pyslice sl x = select m x.
Proof.
  intros Hs H HL. destruct (known_dec c) as [Hk|Hk].
  2:{ destruct (proj2 (sp_mask_spec c Hs) Hk) as [E _]. unfold sp_slice in H. rewrite E in H. discriminate. }
  destruct (proj1 (sp_mask_spec c Hs) Hk) as (m & E & L & _ & _). exists m. split; [exact E|].
  destruct sl as [a b]. destruct (sp_slice_spec c Hs E H) as (f & -> & -> & Hb & Hi & _).
  rewrite pyslice_nonneg by lia. rewrite !Nat2Z.id.
  symmetry. apply select_interval; [congruence|]. intros i _. apply Hi.
Qed.

(** Occupied orbitals first. *)
Section OccFirst.
  Variables (s : space) (a b : nat).
  Hypothesis Hs : accepted s.
  Hypothesis Ho : sp_occupied s = repeat true a ++ repeat false b.
  Lemma of_nocc : nocc s = a.
  Proof. unfold nocc. rewrite Ho, msum_app, msum_repeat_true, msum_repeat_false. lia. Qed.
  Lemma of_nvir : nvir s = b.
  Proof.
    pose proof (msum_not (sp_occupied s)) as X. fold (virtual s) in X. fold (nvir s) in X. fold (nocc s) in X.
    rewrite of_nocc, Ho, app_length, !repeat_length in X. lia.
  Qed.
  Lemma of_nmo : nmo s = a + b.
  Proof. unfold nmo. rewrite Ho, app_length, !repeat_length. reflexivity. Qed.
  Lemma of_isin i : isin i (sp_occupied s) <-> i < a.
  Proof.
    unfold isin. rewrite Ho. destruct (le_lt_dec a i).
    - split; [|lia]. intros H. exfalso. rewrite nth_error_app2 in H by (rewrite repeat_length; lia).
      apply nth_error_In in H. apply repeat_spec in H. discriminate.
    - rewrite nth_error_app1 by (rewrite repeat_length; lia). rewrite nth_error_repeat by lia. split; [lia|reflexivity].
  Qed.
  Lemma of_select {A} (l : list A) : length l = a + b -> select (sp_occupied s) l = firstn a l.
  Proof. intros H. rewrite Ho. apply select_prefix. exact H. Qed.
  Lemma of_select_vir {A} (l : list A) : length l = a + b -> select (virtual s) l = skipn a l.
  Proof.
    intros H. rewrite (@select_interval A l a (a + b)).
    - replace (a + b - a) with b by lia. apply firstn_all2. rewrite skipn_length. lia.
    - unfold virtual. rewrite mnot_length. fold (nmo s). rewrite of_nmo. congruence.
    - intros i Hi. unfold virtual. rewrite isin_mnot, of_isin. fold (nmo s). rewrite of_nmo. lia.
  Qed.

  Lemma oslice_ok {A} c sl (x : list A) : oslice s c = Ok sl -> length x = nocc s ->
    exists m, omask s c = Ok m /\ pyslice sl x = select m x.
  Proof.
    intros H HL. rewrite of_nocc in HL. unfold oslice in H. destruct (sp_slice s c) as [[p q]|] eqn:E; [|discriminate].
    cbn [bind fst snd] in H. injection H as <-.
    destruct (known_dec c) as [Hk|Hk].
    2:{ destruct (proj2 (sp_mask_spec c Hs) Hk) as [E' _]. unfold sp_slice in E. rewrite E' in E. discriminate. }
    destruct (proj1 (sp_mask_spec c Hs) Hk) as (m & Em & L & _ & _). rewrite of_nmo in L.
    unfold omask. rewrite Em. cbn [bind]. eexists. split; [reflexivity|]. rewrite of_select by exact L.
    destruct (sp_slice_spec c Hs Em E) as (f & -> & -> & Hb & Hi & _). rewrite of_nocc.
    rewrite pyslice_nonneg by lia. rewrite Nat2Z.id.
    replace (Z.to_nat (Z.min (Z.of_nat (f + msum m)) (Z.of_nat a))) with (Nat.min (f + msum m) a) by lia.
    symmetry. apply select_interval; [rewrite firstn_length; lia|]. intros i Hl. unfold isin.
    rewrite nth_error_firstn by lia. fold (isin i m). rewrite Hi. lia.
  Qed.

  Lemma vslice_ok {A} c sl (x : list A) : vslice s c = Ok sl -> length x = nvir s ->
    (nocc s = 0 \/ exists i, denotes s c i /\ ~ isin i (sp_occupied s)) ->
    exists m, vmask s c = Ok m /\ pyslice sl x = select m x.
  Proof.
    intros H HL Hex. rewrite of_nocc in Hex. rewrite of_nvir in HL. unfold vslice in H. destruct (sp_slice s c) as [[p q]|] eqn:E; [|discriminate].
    cbn [bind fst snd] in H. injection H as <-.
    destruct (known_dec c) as [Hk|Hk].
    2:{ destruct (proj2 (sp_mask_spec c Hs) Hk) as [E' _]. unfold sp_slice in E. rewrite E' in E. discriminate. }
    destruct (proj1 (sp_mask_spec c Hs) Hk) as (m & Em & L & _ & Hd). rewrite of_nmo in L.
    unfold vmask. rewrite Em. cbn [bind]. eexists. split; [reflexivity|]. rewrite of_select_vir by exact L.
    destruct (sp_slice_spec c Hs Em E) as (f & -> & -> & Hb & Hi & _). rewrite of_nocc.
    assert (Ha : a <= f + msum m).
    { destruct Hex as [->|(i & H1 & H2)]; [lia|]. apply Hd, Hi in H1. rewrite of_isin in H2. lia. }
    rewrite pyslice_nonneg by lia.
    replace (Z.to_nat (Z.max (Z.of_nat f) (Z.of_nat a) - Z.of_nat a)) with (f - a) by lia.
    replace (Z.to_nat (Z.of_nat (f + msum m) - Z.of_nat a)) with (f + msum m - a) by lia.
    symmetry. apply select_interval; [rewrite skipn_length; lia|]. intros i Hl. unfold isin.
    rewrite nth_error_skipn. fold (isin (a + i) m). rewrite Hi. lia.
  Qed.
End OccFirst.

Section Froz.
  Variables (s : space) (a k b : nat).
  Hypothesis Hs : accepted s.
  Hypothesis Hf : sp_frozen s = repeat true a ++ repeat false k ++ repeat true b.
  Hypothesis Hlo : forall i, i < a -> isin i (sp_occupied s).
  Hypothesis Hhi : forall i, a + k <= i -> ~ isin i (sp_occupied s).
  Lemma fr_nmo : nmo s = a + k + b.
  Proof. rewrite <- (proj1 (accepted_inv Hs)), Hf, !app_length, !repeat_length. lia. Qed.
  Lemma fr_isin i : isin i (sp_frozen s) <-> i < a \/ a + k <= i < a + k + b.
  Proof.
    unfold isin. rewrite Hf. destruct (le_lt_dec a i).
    - rewrite nth_error_app2; rewrite repeat_length; [|lia]. destruct (le_lt_dec (a + k) i).
      + rewrite nth_error_app2; rewrite repeat_length; [|lia]. destruct (le_lt_dec b (i - a - k)).
        * rewrite (proj2 (nth_error_None _ _)); [|rewrite repeat_length; lia]. split; [discriminate|lia].
        * rewrite nth_error_repeat by lia. split; [lia|reflexivity].
      + rewrite nth_error_app1 by (rewrite repeat_length; lia). rewrite nth_error_repeat by lia. split; [discriminate|lia].
    - rewrite nth_error_app1 by (rewrite repeat_length; lia). rewrite nth_error_repeat by lia. split; [lia|reflexivity].
  Qed.
  Lemma fr_nfocc : nfocc s = a.
  Proof.
    unfold nfocc, frozen_occupied. rewrite (@msum_interval _ 0 a); [lia|]. intros i. rewrite isin_mand, fr_isin. split.
    - intros [[H|H] Ho]; [lia|]. exfalso. apply (Hhi (i := i)); [lia|exact Ho].
    - intros H. split; [lia|apply Hlo; lia].
  Qed.
  Lemma fr_ncorr : ncorr s = k.
  Proof.
    unfold ncorr, correlated. rewrite (@msum_interval _ a (a + k)); [lia|]. intros i. rewrite isin_mnot, fr_isin.
    rewrite (proj1 (accepted_inv Hs)), fr_nmo. lia.
  Qed.
  Lemma fr_select {A} (l : list A) : length l = nmo s -> select (correlated s) l = firstn k (skipn a l).
  Proof.
    intros H. pose proof (proj1 (accepted_inv Hs)) as HL. rewrite (@select_interval A l a (a + k)).
    - replace (a + k - a) with k by lia. reflexivity.
    - unfold correlated. rewrite mnot_length. congruence.
    - intros i Hi. unfold correlated. rewrite isin_mnot, fr_isin, HL, fr_nmo. rewrite H, fr_nmo in Hi. lia.
  Qed.
  Lemma xslice_ok {A} c sl (x : list A) : xslice s c = Ok sl -> length x = ncorr s ->
    (c = ch_i -> a = 0) -> exists m, xmask s c = Ok m /\ pyslice sl x = select m x.
  Proof.
    intros H HL Hi'. rewrite fr_ncorr in HL. unfold xslice in H. destruct (sp_slice s c) as [[p q]|] eqn:E; [|discriminate].
    cbn [bind fst snd] in H. injection H as <-.
    destruct (known_dec c) as [Hk|Hk].
    2:{ destruct (proj2 (sp_mask_spec c Hs) Hk) as [E' _]. unfold sp_slice in E. rewrite E' in E. discriminate. }
    destruct (proj1 (sp_mask_spec c Hs) Hk) as (m & Em & L & _ & Hd).
    unfold xmask. rewrite Em. cbn [bind]. eexists. split; [reflexivity|]. rewrite fr_select by exact L.
    rewrite fr_nmo in L.
    destruct (sp_slice_spec c Hs Em E) as (f & -> & -> & Hb & Hi & Hz). rewrite fr_nfocc.
    destruct (Nat.eq_dec (msum m) 0) as [Z0|Z0].
    - rewrite (Hz Z0), Z0. unfold pyslice. cbn [fst snd Nat.add]. rewrite Nat.sub_diag. cbn [firstn].
      symmetry. rewrite (@select_interval A x 0 0); [reflexivity|rewrite firstn_length, skipn_length; lia|].
      intros i Hl. split; [|lia]. intros X. exfalso. unfold isin in X. rewrite nth_error_firstn, nth_error_skipn in X by lia.
      fold (isin (a + i) m) in X. apply Hi in X. lia.
    - assert (Haf : a <= f).
      { destruct (le_lt_dec a f); [assumption|]. exfalso. assert (X : isin f m) by (apply Hi; lia). apply Hd in X.
        destruct X as [_ X]. cbn zeta in X.
        assert (Fo : isin f (sp_occupied s)) by (apply Hlo; lia). assert (Ff : isin f (sp_frozen s)) by (apply fr_isin; lia).
        destruct X as [X|[X|[X|[X|[X|[X|X]]]]]]; try tauto.
        - apply (proj2 (proj2 (accepted_inv Hs)) f). tauto.
        - destruct X as [X _]. apply Hi' in X. lia. }
      rewrite pyslice_nonneg by lia.
      replace (Z.to_nat (Z.of_nat f - Z.of_nat a)) with (f - a) by lia.
      replace (Z.to_nat (Z.of_nat (f + msum m) - Z.of_nat a)) with (f + msum m - a) by lia.
      symmetry. apply select_interval; [rewrite firstn_length, skipn_length; lia|]. intros i Hl. unfold isin.
      rewrite nth_error_firstn, nth_error_skipn by lia. fold (isin (a + i) m). rewrite Hi. lia.
  Qed.
End Froz.

Lemma nth_error_ext {A} (l l' : list A) : (forall i, nth_error l i = nth_error l' i) -> l = l'.
Proof.
  revert l'; induction l as [|x l IH]; intros [|y l'] H; [reflexivity|specialize (H 0); discriminate|specialize (H 0); discriminate|].
  f_equal; [specialize (H 0); cbn in H; congruence|]. apply IH. intros i. exact (H (S i)).
Qed.

(** Default space. *)
Lemma isin_map {A} (p : A -> bool) l i : isin i (map p l) <-> exists x, nth_error l i = Some x /\ p x = true.
Proof.
  unfold isin. rewrite nth_error_map. destruct (nth_error l i) as [x|]; cbn.
  - split; [intros H; exists x; split; [reflexivity|congruence]|]. intros (y & H & Hy). congruence.
  - split; [discriminate|]. intros (y & H & _). discriminate.
Qed.
Lemma isin_repeat_false n i : ~ isin i (repeat false n).
Proof. intros H. apply nth_error_In in H. apply repeat_spec in H. discriminate. Qed.
Lemma Qpos_spec q : Qpos q = true <-> (0 < q)%Q.
Proof.
  unfold Qpos. rewrite negb_true_iff. split; intros H.
  - apply Qnot_le_lt. intros X. apply Qle_bool_iff in X. congruence.
  - apply not_true_iff_false. intros X. apply Qle_bool_iff in X. revert X. apply Qlt_not_le. exact H.
Qed.

Lemma construct_default_ok mo_occ : exists s, construct_default mo_occ = Ok s /\ nmo s = length mo_occ /\
  (forall i, isin i (sp_occupied s) <-> exists q, nth_error mo_occ i = Some q /\ (0 < q)%Q) /\
  (forall i, ~ isin i (sp_frozen s)) /\ (forall i, ~ isin i (sp_active s)).
Proof.
  unfold construct_default. rewrite make_space_ok.
  - eexists. split; [reflexivity|]. unfold nmo. cbn [sp_occupied sp_frozen sp_active]. split; [apply map_length|].
    split; [|split; intros i; apply isin_repeat_false]. intros i. rewrite isin_map. split; intros (q & H1 & H2); exists q; (split; [exact H1|]); apply Qpos_spec; exact H2.
  - rewrite map_length, repeat_length. reflexivity.
  - rewrite !repeat_length. reflexivity.
  - intros i [H _]. apply isin_repeat_false in H. exact H.
Qed.

(** FNO space. *)
Lemma downset_prefix (m : mask) : (forall i, isin (S i) m -> isin i m) -> forall i, isin i m <-> i < msum m.
Proof.
  intros H.
  assert (X : exists k, k <= length m /\ forall i, isin i m <-> i < k).
  { induction m as [|b m IH].
    - exists 0. split; [cbn; lia|]. intros i. unfold isin. destruct i; split; try discriminate; lia.
    - assert (Hm : forall i, isin (S i) m -> isin i m) by (intros i Hi; exact (H (S i) Hi)).
      destruct (IH Hm) as (k & Hk & Hk'). destruct b.
      + exists (S k). split; [cbn; lia|]. intros [|i]; [split; [lia|reflexivity]|].
        change (isin (S i) (true :: m)) with (isin i m). rewrite Hk'. lia.
      + exists 0. split; [lia|]. assert (k = 0).
        { destruct k as [|k]; [reflexivity|]. exfalso. assert (X : isin 0 m) by (apply Hk'; lia).
          specialize (H 0 X). discriminate. }
        subst k. intros [|i]; [split; [discriminate|lia]|]. change (isin (S i) (false :: m)) with (isin i m). rewrite Hk'. lia. }
  destruct X as (k & _ & Hk). intros i. rewrite Hk.
  rewrite (@msum_interval m 0 k); [lia|]. intros j. rewrite Hk. lia.
Qed.

Lemma active_tol_prefix tol n : StronglySorted (fun x y => (y <= x)%Q) n ->
  forall i, isin i (active_vir tol None n) <-> i < msum (active_vir tol None n).
Proof.
  intros HS. apply downset_prefix. intros i. cbn [active_vir].
  assert (Q : forall q, negb (Qle_bool q tol) = true <-> (tol < q)%Q).
  { intros q. rewrite negb_true_iff. split; intros X.
    - apply Qnot_le_lt. intros Y. apply Qle_bool_iff in Y. congruence.
    - apply not_true_iff_false. intros Y. apply Qle_bool_iff in Y. revert Y. apply Qlt_not_le. exact X. }
  rewrite !isin_map. intros (y & Hy & Hy2). rewrite Q in Hy2.
  revert i Hy. induction HS as [|x l HS IH HF]; intros i Hy; [destruct i; discriminate|].
  destruct i as [|i].
  - exists x. split; [reflexivity|]. rewrite Q. change (nth_error l 0 = Some y) in Hy. apply nth_error_In in Hy.
    rewrite Forall_forall in HF. specialize (HF _ Hy). lra.
  - apply (IH i). exact Hy.
Qed.

Lemma nth_cumsum l acc j : j < length l -> exists q, nth_error (cumsum acc l) j = Some q /\ (q == acc + Qsum (firstn (S j) l))%Q.
Proof.
  revert acc j; induction l as [|x l IH]; intros acc j H; [cbn in H; lia|]. destruct j as [|j].
  - exists (acc + x)%Q. split; [reflexivity|]. cbn. ring.
  - cbn [length] in H. destruct (IH (acc + x)%Q j ltac:(lia)) as (q & Hq & E). exists q. split; [exact Hq|].
    rewrite E. cbn [firstn Qsum fold_right]. unfold Qsum. ring.
Qed.
Lemma cumsum_length l acc : length (cumsum acc l) = length l.
Proof. revert acc; induction l as [|x l IH]; intros acc; cbn; [reflexivity|rewrite IH; reflexivity]. Qed.
Lemma Qsum_nonneg l : Forall (fun x => (0 <= x)%Q) l -> (0 <= Qsum l)%Q.
Proof. unfold Qsum. induction 1; cbn; lra. Qed.
Lemma Qsum_scale l t : (Qsum (map (fun x => (x / t)%Q) l) == Qsum l / t)%Q.
Proof. unfold Qsum. induction l as [|x l IH]; cbn; [unfold Qdiv; ring|]. rewrite IH. unfold Qdiv. ring. Qed.
Lemma firstn_S_Qsum l j x : nth_error l j = Some x -> (Qsum (firstn (S j) l) == Qsum (firstn j l) + x)%Q.
Proof.
  revert j; induction l as [|y l IH]; intros [|j] H; try discriminate.
  - injection H as ->. cbn. ring.
  - cbn in H. specialize (IH _ H). cbn [firstn Qsum fold_right]. unfold Qsum in *. cbn [firstn] in IH. rewrite IH. cbn [firstn fold_right]. ring.
Qed.

Lemma active_frac_isin f tol n j : isin j (active_vir tol (Some f) n) <->
  j < length n /\ (Qsum (firstn (S j) n) / Qsum n <= f)%Q.
Proof.
  cbn [active_vir]. rewrite isin_map. split.
  - intros (x & Hx & Hx2).
    assert (j < length n).
    { assert (j < length (cumsum 0 (map (fun x => (x / Qsum n)%Q) n))) by (apply nth_error_Some; congruence).
      rewrite cumsum_length, map_length in H. exact H. }
    split; [assumption|].
    destruct (@nth_cumsum (map (fun x => (x / Qsum n)%Q) n) 0 j) as (q & Hq & E); [rewrite map_length; exact H|].
    assert (q = x) by congruence. subst q. apply Qle_bool_iff in Hx2. rewrite E in Hx2.
    rewrite firstn_map, Qsum_scale in Hx2. lra.
  - intros [H1 H2]. destruct (@nth_cumsum (map (fun x => (x / Qsum n)%Q) n) 0 j) as (q & Hq & E); [rewrite map_length; exact H1|].
    exists q. split; [exact Hq|]. apply Qle_bool_iff. rewrite E, firstn_map, Qsum_scale. lra.
Qed.

Lemma active_frac_prefix f tol n : Forall (fun x => (0 <= x)%Q) n -> (0 < Qsum n)%Q ->
  forall i, isin i (active_vir tol (Some f) n) <-> i < msum (active_vir tol (Some f) n).
Proof.
  intros Hn Hs. apply downset_prefix. intros i. rewrite !active_frac_isin. intros [H1 H2]. split; [lia|].
  destruct (nth_error n (S i)) as [x|] eqn:E; [|apply nth_error_None in E; lia].
  assert (Hx : (0 <= x)%Q). { rewrite Forall_forall in Hn. apply Hn. apply nth_error_In in E. exact E. }
  pose proof (firstn_S_Qsum _ _ E) as X. rewrite X in H2.
  assert (P : (0 <= x / Qsum n)%Q).
  { unfold Qdiv. apply Qmult_le_0_compat; [exact Hx|]. apply Qlt_le_weak, Qinv_lt_0_compat, Hs. }
  assert (Q : ((Qsum (firstn (S i) n) + x) / Qsum n == Qsum (firstn (S i) n) / Qsum n + x / Qsum n)%Q) by (unfold Qdiv; ring).
  rewrite Q in H2. lra.
Qed.

Lemma construct_fno_shape mo_occ tol fr n no : length n + no = length mo_occ ->
  map Qpos mo_occ = repeat true no ++ repeat false (length n) ->
  (forall i, isin i (active_vir tol fr n) <-> i < msum (active_vir tol fr n)) ->
  exists s, construct_fno mo_occ tol fr n = Ok s /\ nmo s = length mo_occ /\ sp_occupied s = map Qpos mo_occ /\
    (forall i, ~ isin i (sp_active s)) /\
    (forall i, isin i (sp_frozen s) <-> exists j, i = no + j /\ j < length n /\ ~ isin j (active_vir tol fr n)).
Proof.
  intros HL HO HP.
  assert (Hno : msum (map Qpos mo_occ) = no) by (rewrite HO, msum_app, msum_repeat_true, msum_repeat_false; lia).
  assert (Hlen : length (active_vir tol fr n) = length n).
  { destruct fr; cbn [active_vir]; rewrite map_length, ?cumsum_length, ?map_length; reflexivity. }
  set (na := msum (active_vir tol fr n)) in *.
  assert (Hna : na <= length n).
  { rewrite <- Hlen. pose proof (msum_not (active_vir tol fr n)) as X. fold na in X. lia. }
  unfold construct_fno. rewrite Hno. fold na. rewrite make_space_ok.
  - eexists. split; [reflexivity|]. unfold nmo. cbn [sp_occupied sp_frozen sp_active].
    split; [apply map_length|]. split; [reflexivity|]. split; [intros i; apply isin_repeat_false|].
    intros i. unfold isin at 1. destruct (le_lt_dec (no + na) i).
    + rewrite nth_error_app2; rewrite repeat_length; [|lia]. destruct (le_lt_dec (length mo_occ) i).
      * rewrite (proj2 (nth_error_None _ _)); [|rewrite repeat_length; lia]. split; [discriminate|]. intros (j & -> & Hj & _). lia.
      * rewrite nth_error_repeat by lia. split; [|reflexivity]. intros _. exists (i - no). split; [lia|]. split; [lia|].
        rewrite HP. lia.
    + rewrite nth_error_app1 by (rewrite repeat_length; lia). rewrite nth_error_repeat by lia. split; [discriminate|].
      intros (j & -> & Hj & Hn). exfalso. apply Hn, HP. lia.
  - rewrite map_length, app_length, !repeat_length. lia.
  - rewrite app_length, !repeat_length. lia.
  - intros i [_ H]. apply isin_repeat_false in H. exact H.
Qed.

Lemma partition_counts s : accepted s ->
  nmo s = nocc s + nvir s /\ ncorr s = ncocc s + ncvir s /\ nfroz s = nfocc s + nfvir s /\
  nact s = naocc s + navir s /\ ninact s = niocc s + nivir s /\ nmo s = nfroz s + ncorr s /\ nmo s = nact s + ninact s.
Proof.
  intros Hs. destruct (accepted_inv Hs) as (Hf & Ha & _).
  assert (Lc : length (correlated s) = nmo s) by (unfold correlated; rewrite mnot_length; exact Hf).
  assert (Li : length (inactive s) = nmo s) by (unfold inactive; rewrite mnot_length; exact Ha).
  repeat apply conj; symmetry.
  - apply msum_not.
  - apply msum_split. exact Lc.
  - apply msum_split. exact Hf.
  - apply msum_split. exact Ha.
  - apply msum_split. exact Li.
  - unfold nfroz, ncorr, correlated. rewrite msum_not. exact Hf.
  - unfold nact, ninact, inactive. rewrite msum_not. exact Ha.
Qed.

Lemma partition_masks s i : accepted s -> i < nmo s ->
  (isin i (virtual s) <-> ~ isin i (sp_occupied s)) /\ (isin i (correlated s) <-> ~ isin i (sp_frozen s)) /\
  (isin i (inactive s) <-> ~ isin i (sp_active s)).
Proof.
  intros Hs Hi. destruct (accepted_inv Hs) as (Hf & Ha & _). unfold virtual, correlated, inactive.
  rewrite !isin_mnot, Hf, Ha. fold (nmo s). tauto.
Qed.

Lemma size_counts s c : accepted s -> known_char c -> exists k, sp_size s c = Ok k /\ cardinal (nmo s) (denotes s c) k.
Proof.
  intros Hs Hk. destruct (proj1 (sp_mask_spec c Hs) Hk) as (m & E & L & E2 & Hd). exists (msum m). split; [exact E2|].
  destruct (cardinal_msum m) as (l & N & I & Ll). exists l. split; [exact N|]. split; [|exact Ll].
  intros i. rewrite I, L, Hd. reflexivity.
Qed.

Lemma slice_spec s c : accepted s -> known_char c ->
  (forall a b, sp_slice s c = Ok (a, b) -> (0 <= a)%Z /\ (0 <= b)%Z /\ forall i, denotes s c i <-> (a <= Z.of_nat i < b)%Z) /\
  (0 < nmo s -> (exists a b, forall i, denotes s c i <-> a <= i < b) -> exists r, sp_slice s c = Ok r) /\
  (~ (exists a b, forall i, denotes s c i <-> a <= i < b) -> sp_slice s c = Err ValueError).
Proof.
  intros Hs Hk. destruct (proj1 (sp_mask_spec c Hs) Hk) as (m & E & L & E2 & Hd). split; [|split].
  - intros a b H. destruct (sp_slice_spec c Hs E H) as (f & -> & -> & _ & Hi & _). split; [lia|]. split; [lia|].
    intros i. rewrite <- Hd, Hi. lia.
  - intros Hn (a & b & H). apply sp_slice_complete with (m := m) (a := a) (b := b); [exact Hs|exact E|lia|].
    intros i. rewrite Hd. apply H.
  - intros Hn. apply sp_slice_refuses with (m := m); [exact Hs|exact E|]. intros (a & b & H). apply Hn. exists a, b.
    intros i. rewrite <- Hd. apply H.
Qed.

Lemma oslice_thm {A} s c sl (x : list A) : accepted s -> occupied_first s -> oslice s c = Ok sl -> length x = nocc s ->
  exists m, omask s c = Ok m /\ pyslice sl x = select m x.
Proof. intros Hs (a & b & H). apply (@oslice_ok s a b Hs H A c sl x). Qed.
Lemma vslice_thm {A} s c sl (x : list A) : accepted s -> occupied_first s -> vslice s c = Ok sl -> length x = nvir s ->
  (nocc s = 0 \/ exists i, denotes s c i /\ ~ isin i (sp_occupied s)) ->
  exists m, vmask s c = Ok m /\ pyslice sl x = select m x.
Proof. intros Hs (a & b & H). apply (@vslice_ok s a b Hs H A c sl x). Qed.
Lemma xslice_thm {A} s c sl (x : list A) : accepted s -> frozen_outer s -> xslice s c = Ok sl -> length x = ncorr s ->
  (c = ch_i -> nfocc s = 0) -> exists m, xmask s c = Ok m /\ pyslice sl x = select m x.
Proof.
  intros Hs (a & k & b & Hf & H1 & H2) H HL Hi. apply (@xslice_ok s a k b Hs Hf H1 H2 A c sl x); [exact H|exact HL|].
  intros Hc. rewrite <- (@fr_nfocc s a k b Hf H1 H2). apply Hi, Hc.
Qed.

Lemma fno_tol mo_occ tol n no : length n + no = length mo_occ ->
  (forall i q, nth_error mo_occ i = Some q -> ((0 < q)%Q <-> i < no)) ->
  StronglySorted (fun x y => (y <= x)%Q) n ->
  exists s, construct_fno mo_occ tol None n = Ok s /\ nmo s = length mo_occ /\
    (forall i, isin i (sp_occupied s) <-> i < no) /\ (forall i, ~ isin i (sp_active s)) /\
    (forall i, isin i (sp_frozen s) <-> exists j q, i = no + j /\ nth_error n j = Some q /\ (q <= tol)%Q).
Proof.
  intros HL HO HS.
  assert (HM : map Qpos mo_occ = repeat true no ++ repeat false (length n)).
  { apply nth_error_ext. intros i. rewrite nth_error_map. destruct (nth_error mo_occ i) as [q|] eqn:E; cbn [option_map].
    - assert (Hi : i < length mo_occ) by (apply nth_error_Some; congruence). specialize (HO _ _ E). rewrite <- Qpos_spec in HO.
      destruct (le_lt_dec no i).
      + rewrite nth_error_app2; rewrite repeat_length; [|lia]. rewrite nth_error_repeat by lia. f_equal.
        apply not_true_iff_false. rewrite HO. lia.
      + rewrite nth_error_app1 by (rewrite repeat_length; lia). rewrite nth_error_repeat by lia. f_equal. apply HO. lia.
    - symmetry. apply nth_error_None. apply nth_error_None in E. rewrite app_length, !repeat_length. lia. }
  destruct (@construct_fno_shape mo_occ tol None n no HL HM (@active_tol_prefix tol _ HS)) as (s & E & H1 & H2 & H3 & H4).
  exists s. split; [exact E|]. split; [exact H1|]. split; [|split; [exact H3|]].
  - intros i. apply (@of_isin s no (length n)). rewrite H2. exact HM.
  - intros i. rewrite H4. cbn [active_vir]. split.
    + intros (j & -> & Hj & Hn). destruct (nth_error n j) as [q|] eqn:Eq; [|apply nth_error_None in Eq; lia].
      exists j, q. repeat split; try assumption. rewrite isin_map in Hn. apply Qle_bool_iff.
      destruct (Qle_bool q tol) eqn:EQ; [reflexivity|]. exfalso. apply Hn. exists q. split; [exact Eq|rewrite EQ; reflexivity].
    + intros (j & q & -> & Hq & Ht). exists j. split; [reflexivity|]. split; [apply nth_error_Some; congruence|].
      rewrite isin_map. intros (q' & Hq' & Hn). assert (q' = q) by congruence. subst q'. apply Qle_bool_iff in Ht. rewrite Ht in Hn. discriminate.
Qed.

Lemma fno_frac mo_occ tol f n no : length n + no = length mo_occ ->
  (forall i q, nth_error mo_occ i = Some q -> ((0 < q)%Q <-> i < no)) ->
  Forall (fun x => (0 <= x)%Q) n -> (0 < Qsum n)%Q ->
  exists s, construct_fno mo_occ tol (Some f) n = Ok s /\ nmo s = length mo_occ /\
    (forall i, isin i (sp_occupied s) <-> i < no) /\ (forall i, ~ isin i (sp_active s)) /\
    (forall i, isin i (sp_frozen s) <-> exists j, i = no + j /\ j < length n /\ (f * Qsum n < Qsum (firstn (S j) n))%Q).
Proof.
  intros HL HO Hn Hp.
  assert (HM : map Qpos mo_occ = repeat true no ++ repeat false (length n)).
  { apply nth_error_ext. intros i. rewrite nth_error_map. destruct (nth_error mo_occ i) as [q|] eqn:E; cbn [option_map].
    - assert (Hi : i < length mo_occ) by (apply nth_error_Some; congruence). specialize (HO _ _ E). rewrite <- Qpos_spec in HO.
      destruct (le_lt_dec no i).
      + rewrite nth_error_app2; rewrite repeat_length; [|lia]. rewrite nth_error_repeat by lia. f_equal.
        apply not_true_iff_false. rewrite HO. lia.
      + rewrite nth_error_app1 by (rewrite repeat_length; lia). rewrite nth_error_repeat by lia. f_equal. apply HO. lia.
    - symmetry. apply nth_error_None. apply nth_error_None in E. rewrite app_length, !repeat_length. lia. }
  destruct (@construct_fno_shape mo_occ tol (Some f) n no HL HM (@active_frac_prefix f tol _ Hn Hp)) as (s & E & H1 & H2 & H3 & H4).
  exists s. split; [exact E|]. split; [exact H1|]. split; [|split; [exact H3|]].
  - intros i. apply (@of_isin s no (length n)). rewrite H2. exact HM.
  - intros i. rewrite H4.
    assert (X : forall j, (Qsum (firstn (S j) n) / Qsum n <= f)%Q <-> ~ (f * Qsum n < Qsum (firstn (S j) n))%Q).
    { intros j. split.
      - intros X Y. apply (Qlt_not_le _ _ Y).
        setoid_replace (Qsum (firstn (S j) n)) with (Qsum (firstn (S j) n) / Qsum n * Qsum n)%Q by (field; lra).
        apply Qmult_le_compat_r; [exact X|lra].
      - intros Y. apply Qnot_lt_le in Y. apply Qle_shift_div_r; assumption. }
    split.
    + intros (j & -> & Hj & Hna). exists j. split; [reflexivity|]. split; [exact Hj|].
      rewrite active_frac_isin, X in Hna. apply Qnot_le_lt. intros Y. apply Hna. split; [exact Hj|]. apply Qle_not_lt, Y.
    + intros (j & -> & Hj & Hlt). exists j. split; [reflexivity|]. split; [exact Hj|].
      rewrite active_frac_isin, X. intros [_ Y]. exact (Y Hlt).
Qed.
