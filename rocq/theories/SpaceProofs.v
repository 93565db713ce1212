(** Proofs about orbital spaces. *)
From Coq Require Import QArith.
From Verif Require Import Base ListAux SpaceModel SpaceSpec.
Set Implicit Arguments.
Local Open Scope nat_scope.

Lemma isin_lt i m : isin i m -> i < length m.
Proof. intros H. apply nth_error_Some. unfold isin in H. congruence. Qed.
Lemma isin_dec i m : {isin i m} + {~ isin i m}.
Proof. unfold isin. destruct (nth_error m i) as [[]|]; [left; reflexivity|right; discriminate|right; discriminate]. Qed.

Lemma mnot_length m : length (mnot m) = length m.
Proof. apply map_length. Qed.
Lemma mand_length a b : length a = length b -> length (mand a b) = length a.
Proof. intros H. unfold mand. rewrite map_length, combine_length, H. apply Nat.min_id. Qed.
Lemma isin_mnot i m : isin i (mnot m) <-> i < length m /\ ~ isin i m.
Proof.
  unfold isin, mnot. rewrite nth_error_map. destruct (nth_error m i) as [b|] eqn:E; cbn.
  - assert (i < length m) by (apply nth_error_Some; congruence). destruct b; cbn; intuition congruence.
  - apply nth_error_None in E. split; [discriminate|lia].
Qed.
Lemma nth_error_combine {A B} (l1 : list A) (l2 : list B) i : nth_error (combine l1 l2) i =
  match nth_error l1 i, nth_error l2 i with Some a, Some b => Some (a, b) | _, _ => None end.
Proof.
  revert l2 i; induction l1 as [|a l1 IH]; intros [|b l2] [|i]; cbn; try reflexivity; [|apply IH].
  destruct (nth_error l1 i); reflexivity.
Qed.
Lemma isin_mand i a b : isin i (mand a b) <-> isin i a /\ isin i b.
Proof.
  unfold isin, mand. rewrite nth_error_map, nth_error_combine.
  destruct (nth_error a i) as [[]|], (nth_error b i) as [[]|]; cbn; intuition congruence.
Qed.

(** Counting. *)
Lemma msum_app a b : msum (a ++ b) = msum a + msum b.
Proof. unfold msum. rewrite filter_app, app_length. reflexivity. Qed.
Lemma msum_repeat_true n : msum (repeat true n) = n.
Proof. unfold msum. induction n as [|n IH]; cbn; [reflexivity|]. f_equal. exact IH. Qed.
Lemma msum_repeat_false n : msum (repeat false n) = 0.
Proof. unfold msum. induction n as [|n IH]; cbn; [reflexivity|exact IH]. Qed.
Lemma msum_not m : msum m + msum (mnot m) = length m.
Proof. unfold msum, mnot. induction m as [|[] m IH]; cbn; lia. Qed.
Lemma msum_split m o : length m = length o -> msum (mand m o) + msum (mand m (mnot o)) = msum m.
Proof.
  unfold msum, mand, mnot. revert o; induction m as [|b m IH]; intros [|c o] H; cbn in *; try discriminate; [reflexivity|].
  injection H as H. specialize (IH o H). destruct b, c; cbn; lia.
Qed.

Lemma cardinal_msum m : cardinal (length m) (fun i => isin i m) (msum m).
Proof.
  exists (filter (fun i => nth i m false) (seq 0 (length m))). split; [apply NoDup_filter, seq_NoDup|]. split.
  - intros i. rewrite filter_In, in_seq. unfold isin. split; intros [H1 H2].
    + split; [lia|]. rewrite (nth_error_nth' m false) by lia. congruence.
    + split; [lia|]. apply nth_error_nth with (d := false) in H2. exact H2.
  - unfold msum. induction m as [|b m IH]; [reflexivity|].
    assert (X : forall l, filter (fun i => nth i (b :: m) false) (map S l) = map S (filter (fun i => nth i m false) l)).
    { clear. induction l as [|x l IH]; [reflexivity|]. cbn [map filter]. change (nth (S x) (b :: m) false) with (nth x m false). rewrite IH. destruct (nth x m false); reflexivity. }
    cbn [length seq]. rewrite <- seq_shift. cbn [filter]. rewrite X.
    change (nth 0 (b :: m) false) with b. destruct b; cbn [length]; rewrite map_length, IH; reflexivity.
Qed.

Lemma cardinal_fun n (P : nat -> Prop) k k' : cardinal n P k -> cardinal n P k' -> k = k'.
Proof.
  intros (l & N & I & <-) (l' & N' & I' & <-). apply Permutation_length, NoDup_Permutation; [exact N|exact N'|].
  intros i. rewrite I, I'. reflexivity.
Qed.

(** Construction. *)
Lemma make_space_ok o f a : length o = length f -> length f = length a -> (forall i, ~ (isin i f /\ isin i a)) ->
  make_space o f a = Ok (mkspace o f a).
Proof.
  intros H1 H2 H3. unfold make_space. rewrite H1, H2, !Nat.eqb_refl. cbn [andb negb].
  destruct (existsb (fun b => b) (mand f a)) eqn:E; [|reflexivity]. exfalso.
  apply existsb_exists in E as (b & Hb & ->). apply In_nth_error in Hb as (i & Hi).
  apply (H3 i). apply isin_mand. exact Hi.
Qed.

Lemma make_space_inv o f a s : make_space o f a = Ok s -> s = mkspace o f a /\
  length o = length f /\ length f = length a /\ (forall i, ~ (isin i f /\ isin i a)).
Proof.
  unfold make_space. destruct ((length o =? length f) && (length f =? length a)) eqn:E; [|discriminate].
  apply andb_true_iff in E as [E1 E2]. apply Nat.eqb_eq in E1, E2. cbn [negb].
  destruct (existsb (fun b => b) (mand f a)) eqn:E; [discriminate|]. intros H; injection H as <-.
  repeat split; try assumption. intros i Hi. apply isin_mand in Hi. apply not_true_iff_false in E. apply E.
  apply existsb_exists. exists true. split; [|reflexivity]. apply nth_error_In with (n := i). exact Hi.
Qed.

Lemma make_space_err o f a : (length o <> length f \/ length f <> length a \/ exists i, isin i f /\ isin i a) ->
  make_space o f a = Err ValueError.
Proof.
  intros H. destruct (make_space o f a) as [s|e] eqn:E.
  - apply make_space_inv in E as (_ & H1 & H2 & H3). exfalso. destruct H as [H|[H|(i & H)]]; [congruence|congruence|].
    apply (H3 i H).
  - revert E. unfold make_space. destruct (negb _); [congruence|]. destruct (existsb _ _); congruence.
Qed.

Lemma accepted_inv s : accepted s -> length (sp_frozen s) = nmo s /\ length (sp_active s) = nmo s /\
  (forall i, ~ (isin i (sp_frozen s) /\ isin i (sp_active s))).
Proof.
  intros (o & f & a & H). apply make_space_inv in H as (-> & H1 & H2 & H3). unfold nmo. cbn.
  repeat split; try congruence. exact H3.
Qed.

Lemma sp_mask_spec s c : accepted s ->
  (known_char c -> exists m, sp_mask s c = Ok m /\ length m = nmo s /\ sp_size s c = Ok (msum m) /\
                  (forall i, isin i m <-> denotes s c i)) /\
  (~ known_char c -> sp_mask s c = Err KeyError /\ sp_size s c = Err KeyError).
Proof.
  intros Hs. destruct (accepted_inv Hs) as (Hf & Ha & Hfa). split.
  - intros Hc. unfold known_char in Hc.
    assert (Lv : length (virtual s) = nmo s) by (apply mnot_length).
    assert (Lc : length (correlated s) = nmo s) by (unfold correlated; rewrite mnot_length; exact Hf).
    assert (Li : length (inactive s) = nmo s) by (unfold inactive; rewrite mnot_length; exact Ha).
    assert (Lo : length (sp_occupied s) = nmo s) by reflexivity.
    destruct Hc as [<-|[<-|[<-|[<-|[<-|[<-|[<-|[]]]]]]]]; eexists; (split; [reflexivity|]);
      (split; [unfold correlated_occupied, active_occupied, inactive_occupied, correlated_virtual, active_virtual, inactive_virtual;
               rewrite ?mand_length by congruence; assumption|]); (split; [reflexivity|]);
      intros i; unfold denotes, correlated_occupied, active_occupied, inactive_occupied, correlated_virtual, active_virtual, inactive_virtual;
      rewrite ?isin_mand; unfold correlated, inactive, virtual; rewrite ?isin_mnot;
      rewrite ?Hf, ?Ha; fold (nmo s);
      pose proof (@isin_lt i (sp_occupied s)) as X1; pose proof (@isin_lt i (sp_active s)) as X2; fold (nmo s) in X1;
      rewrite ?Ha in X2;
      cbn zeta; unfold ch_x, ch_o, ch_O, ch_i, ch_v, ch_V, ch_a; intuition (try discriminate).
  - intros Hc. unfold known_char in Hc. cbn in Hc. unfold sp_mask, sp_size.
    repeat match goal with |- context [c =? ?x] => destruct (Nat.eqb_spec c x) as [->|]; [exfalso; tauto|] end.
    split; reflexivity.
Qed.

(** Contiguous masks. *)
Lemma first_true_spec m : match first_true m with
  | Some k => isin k m /\ forall i, i < k -> ~ isin i m
  | None => forall i, ~ isin i m end.
Proof.
  induction m as [|b m IH]; cbn [first_true].
  - intros i. unfold isin. destruct i; discriminate.
  - destruct b; [split; [reflexivity|lia]|]. destruct (first_true m) as [k|]; cbn [option_map].
    + destruct IH as [H1 H2]. split; [exact H1|]. intros [|i] Hi; [discriminate|]. apply H2. lia.
    + intros [|i]; [discriminate|]. apply IH.
Qed.

Lemma msum_positions m : exists l, NoDup l /\ (forall i, In i l <-> isin i m) /\ length l = msum m.
Proof.
  destruct (cardinal_msum m) as (l & N & I & L). exists l. split; [exact N|]. split; [|exact L].
  intros i. rewrite I. split; [tauto|]. intros H. split; [apply isin_lt, H|exact H].
Qed.

Lemma msum_zero m : (forall i, ~ isin i m) -> msum m = 0.
Proof.
  intros H. destruct (msum_positions m) as (l & N & I & <-). destruct l as [|x l]; [reflexivity|].
  exfalso. apply (H x), I. left; reflexivity.
Qed.
Lemma msum_interval m a b : (forall i, isin i m <-> a <= i < b) -> msum m = b - a.
Proof.
  intros H. destruct (msum_positions m) as (l & N & I & <-).
  rewrite <- (seq_length (b - a) a). apply Permutation_length, NoDup_Permutation; [exact N|apply seq_NoDup|].
  intros i. rewrite I, H, in_seq. lia.
Qed.

Lemma argmax_spec m f : argmax m = Ok f -> 0 < length m /\
  ((msum m = 0 /\ f = 0 /\ forall i, ~ isin i m) \/ (isin f m /\ forall i, i < f -> ~ isin i m)).
Proof.
  unfold argmax. destruct m as [|b m]; [discriminate|]. intros H.
  apply (f_equal (fun r => match r with Ok v => v | Err _ => 0 end)) in H.
  pose proof (first_true_spec (b :: m)) as HF. remember (b :: m) as m0.
  split; [subst m0; cbn; lia|]. cbv beta iota in H. subst f. destruct (first_true m0) as [k|]; [right; exact HF|].
  left. split; [apply msum_zero, HF|]. split; [reflexivity|exact HF].
Qed.

Lemma forallb_slice m f k : forallb (fun b => b) (slice f (f + k) m) = true <->
  forall i, f <= i < f + k -> i < length m -> isin i m.
Proof.
  unfold slice. replace (f + k - f) with k by lia. rewrite forallb_forall. split.
  - intros H i Hi Hl.
    assert (E : nth_error m i = nth_error (firstn k (skipn f m)) (i - f)).
    { rewrite <- (firstn_skipn f m) at 1. rewrite nth_error_app2; rewrite firstn_length_le by lia; [|lia].
      rewrite <- (firstn_skipn k (skipn f m)) at 1.
      rewrite nth_error_app1; [reflexivity|]. rewrite firstn_length, skipn_length. lia. }
    unfold isin. rewrite E. destruct (nth_error (firstn k (skipn f m)) (i - f)) as [b|] eqn:Eb.
    + f_equal. apply H. apply nth_error_In with (n := i - f). exact Eb.
    + exfalso. apply nth_error_None in Eb. rewrite firstn_length, skipn_length in Eb. lia.
  - intros H b Hb. apply In_nth_error in Hb as (j & Hj).
    assert (Hj2 : j < length (firstn k (skipn f m))) by (apply nth_error_Some; congruence).
    rewrite firstn_length, skipn_length in Hj2.
    assert (E : nth_error m (f + j) = Some b).
    { rewrite <- (firstn_skipn f m). rewrite nth_error_app2; rewrite firstn_length_le by lia; [|lia].
      replace (f + j - f) with j by lia. rewrite <- (firstn_skipn k (skipn f m)).
      rewrite nth_error_app1; [exact Hj|]. rewrite firstn_length, skipn_length. lia. }
    assert (X : isin (f + j) m) by (apply H; lia). unfold isin in X. congruence.
Qed.

(** [sp_slice] in terms of the mask. *)
Lemma sp_slice_spec s c m a b : accepted s -> sp_mask s c = Ok m -> sp_slice s c = Ok (a, b) ->
  exists f, a = Z.of_nat f /\ b = Z.of_nat (f + msum m) /\ f + msum m <= length m /\
    (forall i, isin i m <-> f <= i < f + msum m) /\ (msum m = 0 -> f = 0).
Proof.
  intros Hs Hm H.
  destruct (in_dec Nat.eq_dec c [ch_x; ch_o; ch_O; ch_i; ch_v; ch_V; ch_a]) as [Hk|Hk].
  2:{ destruct (proj2 (sp_mask_spec c Hs) Hk). congruence. }
  destruct (proj1 (sp_mask_spec c Hs) Hk) as (m' & E1 & L & E2 & _). assert (m' = m) by congruence. subst m'.
  unfold sp_slice in H. rewrite Hm in H. cbn [bind] in H. destruct (argmax m) as [f|] eqn:Ef; [|discriminate].
  cbn [bind] in H. rewrite E2 in H. cbn [bind] in H.
  destruct (forallb _ _) eqn:Eb; [|discriminate]. injection H as <- <-.
  rewrite forallb_slice in Eb. exists f. split; [reflexivity|]. split; [reflexivity|].
  apply argmax_spec in Ef as [Hl [(Hz & -> & Hn)|[Hf1 Hf2]]].
  - rewrite Hz. split; [lia|]. split; [|reflexivity]. intros i. split; [intros Hi; destruct (Hn i Hi)|lia].
  - destruct (msum_positions m) as (l & N & I & Lk).
    assert (Hge : forall i, isin i m -> f <= i).
    { intros i Hi. destruct (le_lt_dec f i); [assumption|]. exfalso. apply (Hf2 i); assumption. }
    assert (Hbound : f + msum m <= length m).
    { pose proof (isin_lt Hf1). assert (length l <= length (seq f (length m - f))).
      { apply NoDup_incl_length; [exact N|]. intros i Hi. apply I in Hi. apply in_seq. pose proof (Hge _ Hi). pose proof (isin_lt Hi). lia. }
      rewrite seq_length in H0. lia. }
    split; [exact Hbound|]. split.
    + intros i. split; [|intros Hi; apply Eb; lia].
      intros Hi.
      assert (Hincl : incl l (seq f (msum m))).
      { apply NoDup_length_incl; [apply seq_NoDup|rewrite seq_length; lia|]. intros j Hj. apply in_seq in Hj. apply I, Eb; lia. }
      apply I in Hi. apply Hincl, in_seq in Hi. exact Hi.
    + intros Hz. rewrite Hz in Lk. destruct l; [|discriminate]. exfalso. apply I in Hf1. destruct Hf1.
Qed.

Lemma sp_slice_complete s c m a b : accepted s -> sp_mask s c = Ok m -> 0 < length m ->
  (forall i, isin i m <-> a <= i < b) -> exists r, sp_slice s c = Ok r.
Proof.
  intros Hs Hm Hl Hi.
  destruct (in_dec Nat.eq_dec c [ch_x; ch_o; ch_O; ch_i; ch_v; ch_V; ch_a]) as [Hk|Hk].
  2:{ destruct (proj2 (sp_mask_spec c Hs) Hk). congruence. }
  destruct (proj1 (sp_mask_spec c Hs) Hk) as (m' & E1 & L & E2 & _). assert (m' = m) by congruence. subst m'.
  unfold sp_slice. rewrite Hm. cbn [bind]. destruct (argmax m) as [f|] eqn:Ef.
  2:{ destruct m; [cbn in Hl; lia|discriminate]. }
  cbn [bind]. rewrite E2. cbn [bind].
  assert (X : forallb (fun b => b) (slice f (f + msum m) m) = true).
  { apply forallb_slice. intros i H1 H2. apply argmax_spec in Ef as [_ [(Hz & -> & _)|[Hf1 Hf2]]]; [lia|].
    apply Hi. rewrite (msum_interval Hi) in H1. apply Hi in Hf1 as Hf1'.
    assert (f = a). { destruct (Nat.eq_dec f a); [assumption|]. exfalso. apply (Hf2 a); [lia|]. apply Hi. lia. }
    lia. }
  rewrite X. eauto.
Qed.

Lemma sp_slice_refuses s c m : accepted s -> sp_mask s c = Ok m ->
  ~ (exists a b, forall i, isin i m <-> a <= i < b) -> sp_slice s c = Err ValueError.
Proof.
  intros Hs Hm Hn.
  destruct (sp_slice s c) as [[a b]|e] eqn:E.
  - exfalso. destruct (sp_slice_spec c Hs Hm E) as (f & _ & _ & _ & H & _). apply Hn. eauto.
  - revert E. unfold sp_slice. rewrite Hm. cbn [bind]. unfold argmax. destruct m as [|x m]; cbn [bind]; [congruence|].
    destruct (in_dec Nat.eq_dec c [ch_x; ch_o; ch_O; ch_i; ch_v; ch_V; ch_a]) as [Hk|Hk].
    2:{ destruct (proj2 (sp_mask_spec c Hs) Hk). congruence. }
    destruct (proj1 (sp_mask_spec c Hs) Hk) as (m' & E1 & L & E2 & _). rewrite E2. cbn [bind].
    destruct (forallb _ _); congruence.
Qed.

(** Selecting through an interval mask. *)
Lemma select_interval_aux {A} (l : list A) a b s m : length m = length l ->
  (forall i, i < length l -> (isin i m <-> a <= s + i < b)) ->
  select m l = firstn (b - Nat.max a s) (skipn (a - s) l).
Proof.
  revert s m. induction l as [|x l IH]; intros s [|c m] HL H; cbn in HL; try discriminate.
  - cbn. rewrite skipn_nil, firstn_nil. reflexivity.
  - assert (HIH : select m l = firstn (b - Nat.max a (S s)) (skipn (a - S s) l)).
    { apply IH; [congruence|]. intros i Hi. specialize (H (S i)). cbn [length] in H.
      replace (S s + i) with (s + S i) by lia. apply H. lia. }
    specialize (H 0 ltac:(cbn; lia)). rewrite Nat.add_0_r in H. unfold isin in H. cbn in H.
    unfold select in *. cbn [combine filter fst]. destruct c.
    + cbn [map snd]. rewrite HIH. destruct (proj1 H eq_refl) as [H1 H2].
      replace (a - s) with 0 by lia. replace (a - S s) with 0 by lia.
      replace (b - Nat.max a s) with (S (b - Nat.max a (S s))) by lia. reflexivity.
    + rewrite HIH. assert (Hn : ~ (a <= s < b)) by (intros X; apply H in X; discriminate).
      destruct (le_lt_dec a s).
      * replace (b - Nat.max a s) with 0 by lia. replace (b - Nat.max a (S s)) with 0 by lia. reflexivity.
      * replace (a - s) with (S (a - S s)) by lia. cbn [skipn].
        replace (Nat.max a s) with (Nat.max a (S s)) by lia. reflexivity.
Qed.

Lemma select_interval {A} (l : list A) a b m : length m = length l ->
  (forall i, i < length l -> (isin i m <-> a <= i < b)) -> select m l = firstn (b - a) (skipn a l).
Proof.
  intros HL H. rewrite (@select_interval_aux A l a b 0 m HL H), Nat.max_0_r, Nat.sub_0_r. reflexivity.
Qed.

Lemma norm_nonneg n z : (0 <= z)%Z -> norm_bound n z = Nat.min (Z.to_nat z) n.
Proof. intros H. unfold norm_bound. destruct (Z.ltb_spec z 0); [lia|]. lia. Qed.

Lemma firstn_min {A} k n (l : list A) : length l <= n -> firstn (Nat.min k n) l = firstn k l.
Proof.
  intros H. destruct (le_lt_dec k n); [rewrite Nat.min_l by lia; reflexivity|].
  rewrite Nat.min_r by lia. rewrite !firstn_all2 by lia. reflexivity.
Qed.

Lemma pyslice_nonneg {A} (l : list A) a b : (0 <= a)%Z -> (0 <= b)%Z ->
  pyslice (a, b) l = firstn (Z.to_nat b - Z.to_nat a) (skipn (Z.to_nat a) l).
Proof.
  intros Ha Hb. unfold pyslice. cbn [fst snd]. rewrite !norm_nonneg by assumption.
  set (x := Z.to_nat a). set (y := Z.to_nat b).
  destruct (le_lt_dec (length l) x).
  - rewrite (Nat.min_r x) by lia. rewrite !skipn_all2 by lia. rewrite !firstn_nil. reflexivity.
  - rewrite (Nat.min_l x) by lia. destruct (le_lt_dec y (length l)).
    + rewrite Nat.min_l by lia. reflexivity.
    + rewrite Nat.min_r by lia. rewrite !firstn_all2; [reflexivity| |]; rewrite skipn_length; lia.
Qed.

(** Sub-masks. *)
Lemma select_prefix {A} n v (l : list A) : length l = n + v -> select (repeat true n ++ repeat false v) l = firstn n l.
Proof.
  intros HL. rewrite (@select_interval A l 0 n).
  - rewrite Nat.sub_0_r. reflexivity.
  - rewrite app_length, !repeat_length. lia.
  - intros i Hi. unfold isin. destruct (le_lt_dec n i).
    + rewrite nth_error_app2; rewrite repeat_length; [|lia].
      rewrite nth_error_repeat by lia. split; [discriminate|lia].
    + rewrite nth_error_app1 by (rewrite repeat_length; lia). rewrite nth_error_repeat by lia. split; [lia|reflexivity].
Qed.
