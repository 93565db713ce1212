(** The contraction back ends compute the defining sum. *)
From Coq Require Import Sorted Ring.
From Verif Require Import Base ListAux Alg ArrModel ArrProofs EinsumModel GroupProofs SpinProofs.
Set Implicit Arguments.

Lemma upd_same e c x : upd e c x c = x.
Proof. unfold upd. rewrite Nat.eqb_refl. reflexivity. Qed.
Lemma upd_other e c x c' : c' <> c -> upd e c x c' = e c'.
Proof. intros H. unfold upd. destruct (Nat.eqb_spec c' c); [contradiction|reflexivity]. Qed.

Lemma map_upd_notin e c x L : ~ In c L -> map (upd e c x) L = map e L.
Proof.
  intros H. apply map_ext_in. intros y Hy. apply upd_other. intros ->. contradiction.
Qed.

Lemma pos_in_nth {A} (d : A) (f : nat -> A) l c : In c l -> nth (pos_in l c) (map f l) d = f c.
Proof.
  intros H. unfold pos_in. destruct (index_of_in l c H) as [k Hk]. rewrite Hk.
  apply index_of_nth in Hk as [H1 H2]. rewrite (nth_map_lt f l d 0 H1), H2. reflexivity.
Qed.

Lemma pos_in_self l : NoDup l -> map (pos_in l) l = seq 0 (length l).
Proof.
  intros H. apply nth_ext with (d := 0) (d' := 0); [rewrite map_length, seq_length; reflexivity|].
  intros k Hk. rewrite map_length in Hk. rewrite seq_nth by exact Hk.
  rewrite (nth_map_lt (pos_in l) l 0 0 Hk). unfold pos_in. rewrite index_of_nodup by assumption. reflexivity.
Qed.

Lemma env_of_map cs vs : NoDup cs -> length vs = length cs -> map (env_of cs vs) cs = vs.
Proof.
  intros Hnd HL. apply nth_ext with (d := 0) (d' := 0); [rewrite map_length; congruence|].
  intros k Hk. rewrite map_length in Hk. rewrite (nth_map_lt (env_of cs vs) cs 0 0 Hk).
  unfold env_of. rewrite index_of_nodup by assumption. reflexivity.
Qed.

Lemma env_of_eq e cs c : In c cs -> env_of cs (map e cs) c = e c.
Proof.
  intros H. unfold env_of. destruct (index_of_in cs c H) as [k Hk]. rewrite Hk.
  apply index_of_nth in Hk as [H1 H2]. rewrite (nth_map_lt e cs 0 0 H1), H2. reflexivity.
Qed.

(** [e] is within the extents on the letters of [L]. *)
Definition bounded (sz e : nat -> nat) (L : list nat) : Prop := forall c, In c L -> e c < sz c.

Lemma bounded_inb sz e L : bounded sz e L -> inb (map sz L) (map e L).
Proof.
  intros H. induction L as [|c L IH]; cbn; constructor; [apply H; left; reflexivity|].
  apply IH. intros x Hx; apply H; right; exact Hx.
Qed.

Lemma inb_bounded sz L idx : NoDup L -> inb (map sz L) idx ->
  bounded sz (env_of L idx) L /\ map (env_of L idx) L = idx.
Proof.
  intros Hnd Hi. pose proof (inb_length Hi) as HL. rewrite map_length in HL. split; [|apply env_of_map; assumption].
  intros c Hc. unfold env_of. destruct (index_of_in L c Hc) as [k Hk]. rewrite Hk.
  apply index_of_nth in Hk as [H1 H2].
  apply inb_nth with (k := k) in Hi; [|rewrite map_length; exact H1].
  rewrite (nth_map_lt sz L 0 0 H1), H2 in Hi. exact Hi.
Qed.

Section Lin.
  Variable K : rng.
  Add Ring Kring : (rth K).
  Local Open Scope rng_scope.

  (** Transposing by letters permutes the axes named by those letters. *)
  Lemma transpose_labels (a : arr K) sz l l' : NoDup l -> Permutation l l' -> shp a = map sz l ->
    exists b, transpose 0 a (map (pos_in l) l') = Ok b /\ shp b = map sz l' /\ wf b /\
      (forall e, bounded sz e l -> aget 0 b (map e l') = aget 0 a (map e l)).
  Proof.
    intros Hnd Hp Hs.
    assert (Hperm : Permutation (seq 0 (length l)) (map (pos_in l) l'))
      by (rewrite <- pos_in_self by exact Hnd; apply Permutation_map, Hp).
    assert (Hshape : map (fun k => nth k (shp a) 0%nat) (map (pos_in l) l') = map sz l').
    { rewrite map_map. apply map_ext_in. intros c Hc. rewrite Hs. apply pos_in_nth.
      apply (Permutation_in c (Permutation_sym Hp) Hc). }
    rewrite transpose_ok by (rewrite Hs, map_length; exact Hperm). eexists; split; [reflexivity|].
    split; [cbn [tab shp]; exact Hshape|]. split; [apply tab_wf|].
    intros e He.
    assert (Hgather : map (fun k => nth k (map e l) 0%nat) (map (pos_in l) l') = map e l').
    { rewrite map_map. apply map_ext_in. intros c Hc. apply pos_in_nth.
      apply (Permutation_in c (Permutation_sym Hp) Hc). }
    rewrite (@aget_tab K 0 _ (fun idx => aget 0 a (unperm (map (pos_in l) l') idx))).
    - rewrite <- Hgather, unperm_gather; [reflexivity| |].
      + rewrite map_length, <- (Permutation_length Hp). exact Hperm.
      + rewrite !map_length. apply Permutation_length, Hp.
    - rewrite Hshape. apply bounded_inb. intros c Hc. apply He.
      apply (Permutation_in c (Permutation_sym Hp) Hc).
  Qed.

  (** Sums over letters. *)
  Definition respects (F : (nat -> nat) -> K) : Prop := forall e e', (forall c, e c = e' c) -> F e = F e'.
  Definition setl (e : nat -> nat) (L v : list nat) : nat -> nat :=
    fun c => match index_of c L with Some k => nth k v 0%nat | None => e c end.

  Lemma sum_over_respects sz L (F : (nat -> nat) -> K) : respects F -> respects (sum_over K sz L F).
  Proof.
    intros HF. induction L as [|c L IH]; intros e e' He; cbn [sum_over]; [apply HF, He|].
    apply rsum_map_ext. intros x _. apply IH. intros y. unfold upd. destruct (y =? c)%nat; [reflexivity|apply He].
  Qed.

  Lemma sum_over_perm sz L L' (F : (nat -> nat) -> K) e : respects F -> NoDup L -> Permutation L L' ->
    sum_over K sz L F e = sum_over K sz L' F e.
  Proof.
    intros HF Hnd Hp. revert e Hnd. induction Hp as [|c L L' Hp IH|c d L|L L' L'' H1 IH1 H2 IH2]; intros e Hnd.
    - reflexivity.
    - cbn [sum_over]. apply rsum_map_ext. intros x _. apply IH. inversion Hnd; assumption.
    - cbn [sum_over]. rewrite rsum_swap. apply rsum_map_ext. intros x _. apply rsum_map_ext. intros y _.
      apply sum_over_respects; [exact HF|]. intros z. unfold upd.
      assert (c <> d) by (intros ->; inversion Hnd as [|? ? Hn _]; apply Hn; left; reflexivity).
      destruct (Nat.eqb_spec z c), (Nat.eqb_spec z d); congruence.
    - rewrite IH1 by exact Hnd. apply IH2. apply (Permutation_NoDup H1 Hnd).
  Qed.

  Lemma sum_over_all sz L (F : (nat -> nat) -> K) e : respects F -> NoDup L ->
    sum_over K sz L F e = rsum (map (fun v => F (setl e L v)) (all_idx (map sz L))).
  Proof.
    intros HF. revert e. induction L as [|c L IH]; intros e Hnd; cbn [sum_over map].
    - cbn. transitivity (F e + 0); [ring|]. f_equal. 
    - inversion Hnd as [|? ? Hc Hnd']; subst. unfold all_idx. cbn [product map].
      rewrite rsum_flat_map. apply rsum_map_ext. intros x _. rewrite IH by exact Hnd'. rewrite map_map.
      apply rsum_map_ext. intros v _. apply HF. intros y. unfold setl. cbn [index_of].
      destruct (Nat.eqb_spec y c) as [->|Hne].
      + destruct (index_of c L) as [k|] eqn:E; [|apply upd_same].
        apply index_of_nth in E as [E1 E2]. exfalso. apply Hc. rewrite <- E2. apply nth_In, E1.
      + destruct (index_of y L) as [k|]; [reflexivity|apply upd_other, Hne].
  Qed.

  Lemma setl_in e L v c : In c L -> setl e L v c = env_of L v c.
  Proof. intros H. unfold setl, env_of. destruct (index_of_in L c H) as [k ->]. reflexivity. Qed.
  Lemma setl_notin e L v c : ~ In c L -> setl e L v c = e c.
  Proof.
    intros H. unfold setl. destruct (index_of c L) as [k|] eqn:E; [|reflexivity].
    apply index_of_nth in E as [E1 E2]. exfalso. apply H. rewrite <- E2. apply nth_In, E1.
  Qed.

  Lemma einsum_elem_respects inps args : respects (einsum_elem K inps args).
  Proof.
    intros e e' He. unfold einsum_elem. f_equal. apply map_ext. intros p. f_equal. apply map_ext, He.
  Qed.

  (** Extensionality on a set of letters, with bounds. *)
  Lemma sum_over_ext sz L (F G : (nat -> nat) -> K) e : respects F -> respects G -> NoDup L ->
    (forall e', (forall c, ~ In c L -> e' c = e c) -> bounded sz e' L -> F e' = G e') ->
    sum_over K sz L F e = sum_over K sz L G e.
  Proof.
    intros HF HG Hnd H. rewrite !sum_over_all by assumption. apply rsum_map_ext. intros v Hv.
    apply all_idx_in in Hv. apply H; [intros c Hc; apply setl_notin, Hc|].
    destruct (inb_bounded sz Hnd Hv) as [Hb _]. intros c Hc. rewrite setl_in by exact Hc. apply Hb, Hc.
  Qed.

  (** Extents. *)
  Lemma ranges_loop_spec l d rg : ranges_loop l d = Ok rg ->
    (forall c n, In (c, n) l -> extent rg c = n) /\
    (forall c n, dget Nat.eq_dec c d = Some n -> dget Nat.eq_dec c rg = Some n).
  Proof.
    revert d. induction l as [|(c, n) l IH]; intros d; cbn [ranges_loop].
    - intros H; injection H as <-. split; [intros ? ? []|auto].
    - intros H. assert (H' : ranges_loop l (dset Nat.eq_dec c n d) = Ok rg /\
                            (dget Nat.eq_dec c d = None \/ dget Nat.eq_dec c d = Some n)).
      { destruct (dget Nat.eq_dec c d) as [m|]; [|auto]. destruct (m =? n)%nat eqn:E; [|discriminate]. apply Nat.eqb_eq in E. rewrite E. auto. }
      clear H. destruct H' as [H Hd]. apply IH in H as [H1 H2]. split.
      + intros c' n' [E|Hin]; [|apply H1, Hin]. injection E as <- <-. unfold extent.
        rewrite (H2 c n); [reflexivity|]. rewrite dget_dset. destruct (Nat.eq_dec c c); [reflexivity|contradiction].
      + intros c' n' Hg. apply H2. rewrite dget_dset. destruct (Nat.eq_dec c' c) as [->|]; [|exact Hg].
        destruct Hd as [Hd|Hd]; congruence.
  Qed.

  Lemma combine_shape sz (l s : list nat) : length l = length s ->
    (forall c n, In (c, n) (combine l s) -> sz c = n) -> s = map sz l.
  Proof.
    revert s; induction l as [|c l IH]; intros [|n s] HL H; cbn in *; try discriminate; [reflexivity|].
    f_equal; [symmetry; apply H; left; reflexivity|]. apply IH; [congruence|]. intros; apply H; right; assumption.
  Qed.

  Lemma ranges_shapes inps (args : list (arr K)) rg : ndims_ok K inps args = true -> ranges_of K inps args = Ok rg ->
    forall p, In p (combine inps args) -> shp (snd p) = map (extent rg) (fst p).
  Proof.
    intros Hn Hr [i a] Hp. unfold ranges_of in Hr. apply ranges_loop_spec in Hr as [Hr _].
    unfold ndims_ok in Hn. apply andb_true_iff in Hn as [_ Hn]. rewrite forallb_forall in Hn.
    specialize (Hn _ Hp). apply Nat.eqb_eq in Hn. cbn in *. apply combine_shape; [exact Hn|].
    intros c n Hin. apply Hr. apply in_flat_map. exists (i, a). split; [exact Hp|exact Hin].
  Qed.
End Lin.

(** Reordering of the letters. *)
Lemma remove_first_notin d l : ~ In d l -> remove_first d l = l.
Proof.
  induction l as [|y l IH]; intros H; cbn; [reflexivity|].
  destruct (Nat.eqb_spec d y) as [->|]; [exfalso; apply H; left; reflexivity|].
  rewrite IH; [reflexivity|]. intros Hi; apply H; right; exact Hi.
Qed.

Lemma filter_neq_notin d l : ~ In d l -> filter (fun x => negb (x =? d)) l = l.
Proof.
  intros H. induction l as [|y l IH]; cbn [filter]; [reflexivity|].
  destruct (Nat.eqb_spec y d) as [->|]; [exfalso; apply H; left; reflexivity|]. cbn [negb].
  rewrite IH; [reflexivity|]. intros Hi; apply H; right; exact Hi.
Qed.

Lemma remove_first_filter d l : NoDup l -> remove_first d l = filter (fun x => negb (x =? d)) l.
Proof.
  intros H. induction H as [|y l Hy Hnd IH]; cbn [remove_first filter]; [reflexivity|].
  rewrite (Nat.eqb_sym y d). destruct (Nat.eqb_spec d y) as [->|]; cbn [negb].
  - symmetry. apply filter_neq_notin, Hy.
  - rewrite IH. reflexivity.
Qed.

Lemma remove_first_app d l1 l2 : ~ In d l1 -> remove_first d (l1 ++ l2) = l1 ++ remove_first d l2.
Proof.
  induction l1 as [|y l IH]; intros H; cbn; [reflexivity|].
  destruct (Nat.eqb_spec d y) as [->|]; [exfalso; apply H; left; reflexivity|].
  rewrite IH; [reflexivity|]. intros Hi; apply H; right; exact Hi.
Qed.

Lemma remove_first_length d l : In d l -> length (remove_first d l) = length l - 1.
Proof.
  induction l as [|y l IH]; intros H; [destruct H|]. cbn [remove_first length].
  destruct (Nat.eqb_spec d y) as [->|Hne]; [lia|]. destruct H as [->|H]; [contradiction|].
  cbn [length]. rewrite IH by exact H. destruct l; [destruct H|cbn; lia].
Qed.

Definition without (ds l : list nat) : list nat := filter (fun c => negb (memb c ds)) l.

Lemma without_cons d ds l : NoDup l -> without ds (remove_first d l) = without (d :: ds) l.
Proof.
  intros H. rewrite remove_first_filter by exact H. unfold without. clear H.
  induction l as [|y l IH]; cbn [filter]; [reflexivity|].
  change (memb y (d :: ds)) with ((y =? d) || memb y ds). destruct (y =? d) eqn:E; cbn [negb orb].
  - exact IH.
  - cbn [filter]. rewrite IH. reflexivity.
Qed.

Lemma memb_false x l : memb x l = false <-> ~ In x l.
Proof. rewrite <- not_true_iff_false, memb_in. reflexivity. Qed.

Lemma without_nil l : without [] l = l.
Proof.
  unfold without. induction l as [|y l IH]; cbn [filter]; [reflexivity|].
  change (memb y []) with false. cbn [negb]. rewrite IH. reflexivity.
Qed.

Lemma remove_first_in d l x : In x (remove_first d l) -> In x l.
Proof.
  induction l as [|y l IH]; cbn; [tauto|]. destruct (d =? y); [tauto|]. intros [H|H]; [left; exact H|right; apply IH, H].
Qed.

Lemma remove_first_other d l x : x <> d -> In x l -> In x (remove_first d l).
Proof.
  intros Hx. induction l as [|y l IH]; cbn; [tauto|]. destruct (Nat.eqb_spec d y) as [->|].
  - intros [H|H]; [congruence|exact H].
  - intros [H|H]; [left; exact H|right; apply IH, H].
Qed.

Lemma remove_first_nodup d l : NoDup l -> NoDup (remove_first d l).
Proof. intros H. rewrite remove_first_filter by exact H. apply NoDup_filter, H. Qed.

Lemma remove_first_gone d l : NoDup l -> ~ In d (remove_first d l).
Proof. intros H. rewrite remove_first_filter by exact H. rewrite filter_In, Nat.eqb_refl. intros [_ E]; discriminate. Qed.

Lemma reorder_spec ds i at_ pre rest :
  NoDup ds -> NoDup at_ -> NoDup rest -> incl ds at_ -> incl ds rest -> length pre = i ->
  (forall c, In c ds -> ~ In c pre) ->
  reorder ds i at_ (pre ++ rest) = (without ds at_ ++ ds, pre ++ ds ++ without ds rest).
Proof.
  revert i at_ pre rest. induction ds as [|d ds IH]; intros i at_ pre rest Hds Hat Hrest Ia Ib Hi Hpre; cbn [reorder].
  - rewrite !without_nil, app_nil_r. reflexivity.
  - inversion Hds as [|? ? Hd Hds']; subst.
    assert (E1 : list_insert (length at_ - 1) d (remove_first d at_) = remove_first d at_ ++ [d]).
    { unfold list_insert. rewrite <- (@remove_first_length d at_) by (apply Ia; left; reflexivity).
      rewrite firstn_all, skipn_all. reflexivity. }
    assert (E2 : list_insert (length pre) d (remove_first d (pre ++ rest)) = (pre ++ [d]) ++ remove_first d rest).
    { rewrite remove_first_app by (apply Hpre; left; reflexivity). unfold list_insert.
      rewrite firstn_app, firstn_all, Nat.sub_diag, skipn_app, skipn_all, Nat.sub_diag. cbn [firstn skipn app].
      rewrite app_nil_r, <- app_assoc. reflexivity. }
    rewrite E1, E2, IH.
    + f_equal.
      * unfold without at 1. rewrite filter_app. fold (without ds (remove_first d at_)).
        rewrite without_cons by exact Hat. cbn [filter].
        assert (Hm : memb d ds = false) by (apply memb_false, Hd). rewrite Hm. cbn [negb].
        rewrite <- app_assoc. reflexivity.
      * rewrite without_cons by exact Hrest. rewrite <- app_assoc. reflexivity.
    + exact Hds'.
    + apply NoDup_app_intro; [apply remove_first_nodup, Hat|constructor; [intros []|constructor]|].
      intros x Hx [->|[]]. apply (@remove_first_gone x at_ Hat Hx).
    + apply remove_first_nodup, Hrest.
    + intros x Hx. apply in_or_app. left. apply remove_first_other; [intros ->; contradiction|]. apply Ia. right; exact Hx.
    + intros x Hx. apply remove_first_other; [intros ->; contradiction|]. apply Ib. right; exact Hx.
    + rewrite app_length. cbn. lia.
    + intros c Hc Hin. apply in_app_or in Hin as [Hin|[->|[]]]; [|contradiction].
      apply (Hpre c); [right; exact Hc|exact Hin].
Qed.

Lemma take_until_app f l1 l2 : (forall x, In x l1 -> f x = false) -> (forall x, In x l2 -> f x = true) ->
  take_until f (l1 ++ l2) = l1.
Proof.
  intros H1 H2. induction l1 as [|x l IH]; cbn [app take_until].
  - destruct l2 as [|y l2]; cbn; [reflexivity|]. rewrite H2 by (left; reflexivity). reflexivity.
  - rewrite H1 by (left; reflexivity). rewrite IH; [reflexivity|]. intros; apply H1; right; assumption.
Qed.

Lemma without_in ds l x : In x (without ds l) <-> In x l /\ ~ In x ds.
Proof. unfold without. rewrite filter_In, negb_true_iff, memb_false. reflexivity. Qed.

Lemma without_perm ds l : NoDup l -> NoDup ds -> incl ds l -> Permutation l (without ds l ++ ds).
Proof.
  intros H1 H2 H3. apply NoDup_Permutation; [exact H1| |].
  - apply NoDup_app_intro; [apply NoDup_filter, H1|exact H2|]. intros x Hx. apply without_in in Hx. tauto.
  - intros x. rewrite in_app_iff, without_in. split; [|intros [[H _]|H]; [exact H|apply H3, H]].
    intros H. destruct (in_dec Nat.eq_dec x ds); [right|left]; auto.
Qed.
