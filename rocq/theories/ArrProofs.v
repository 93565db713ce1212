(** Lemmas about the array primitives. *)
From Verif Require Import Base ListAux PermModel TrilProofs ArrModel.
Set Implicit Arguments.

Lemma all_idx_in s idx : In idx (all_idx s) <-> inb s idx.
Proof.
  unfold all_idx, inb. rewrite product_in.
  revert idx; induction s as [|n s IH]; intros idx; cbn [map]; split; intros H; inversion H; subst; constructor;
    try (apply IH; assumption).
  - rewrite in_seq in *; lia.
  - rewrite in_seq in *; lia.
Qed.

Lemma all_idx_nodup s : NoDup (all_idx s).
Proof. apply product_nodup. apply Forall_map, Forall_forall. intros n _. apply seq_NoDup. Qed.

Lemma all_idx_length s : length (all_idx s) = prodn s.
Proof.
  unfold all_idx. rewrite product_length. induction s as [|n s IH]; cbn; [reflexivity|].
  rewrite seq_length, IH. reflexivity.
Qed.

Lemma ravel_lt s idx : inb s idx -> ravel s idx < prodn s.
Proof.
  induction 1 as [|i n idx s Hi H IH]; cbn; [lia|]. fold (prodn s) in *. nia.
Qed.

Lemma all_idx_nth s idx d : inb s idx -> nth (ravel s idx) (all_idx s) d = idx.
Proof.
  intros H. induction H as [|i n idx s Hi H IH]; [reflexivity|].
  cbn [ravel]. change (all_idx (n :: s)) with (flat_map (fun x => map (cons x) (all_idx s)) (seq 0 n)).
  pose proof (ravel_lt H) as Hr.
  assert (G : forall m b, i < m ->
    nth (i * prodn s + ravel s idx) (flat_map (fun x => map (cons x) (all_idx s)) (seq b m)) d = (b + i) :: idx).
  { clear n Hi. induction i as [|i IHi]; intros m b Hm; (destruct m as [|m]; [lia|]); cbn [seq flat_map].
    - rewrite app_nth1 by (rewrite map_length, all_idx_length; cbn; exact Hr).
      cbn [Nat.mul Nat.add]. rewrite Nat.add_0_r.
      rewrite nth_indep with (d' := b :: []) by (rewrite map_length, all_idx_length; exact Hr).
      rewrite (map_nth (cons b) (all_idx s) [] (ravel s idx)). f_equal.
      rewrite nth_indep with (d' := d) by (rewrite all_idx_length; exact Hr). exact IH.
    - rewrite app_nth2; rewrite map_length, all_idx_length; [|nia].
      replace (S i * prodn s + ravel s idx - prodn s) with (i * prodn s + ravel s idx) by nia.
      rewrite IHi by lia. f_equal. lia. }
  rewrite G by exact Hi. reflexivity.
Qed.

Lemma ravel_inj s i j : inb s i -> inb s j -> ravel s i = ravel s j -> i = j.
Proof.
  intros Hi Hj H. rewrite <- (all_idx_nth [] Hi), <- (all_idx_nth [] Hj), H. reflexivity.
Qed.

Lemma ravel_surj s k : k < prodn s -> exists idx, inb s idx /\ ravel s idx = k.
Proof.
  revert k; induction s as [|n s IH]; intros k Hk.
  - exists []. cbn in *. split; [constructor|lia].
  - cbn in Hk. fold (prodn s) in Hk.
    assert (Hp : prodn s <> 0) by (intros E; rewrite E in Hk; lia).
    destruct (IH (k mod prodn s)) as (idx & H1 & H2); [apply Nat.mod_upper_bound; exact Hp|].
    exists (k / prodn s :: idx). split.
    + constructor; [|exact H1]. apply Nat.div_lt_upper_bound; [exact Hp|]. rewrite Nat.mul_comm. exact Hk.
    + cbn [ravel]. rewrite H2. rewrite Nat.mul_comm. symmetry. apply Nat.div_mod. exact Hp.
Qed.

Lemma all_idx_ravel s : map (ravel s) (all_idx s) = seq 0 (prodn s).
Proof.
  apply nth_ext with (d := 0) (d' := 0); [rewrite map_length, all_idx_length, seq_length; reflexivity|].
  intros k Hk. rewrite map_length, all_idx_length in Hk. rewrite seq_nth by exact Hk. cbn.
  destruct (ravel_surj s Hk) as (idx & H1 & H2).
  rewrite nth_indep with (d' := ravel s []) by (rewrite map_length, all_idx_length; exact Hk).
  rewrite map_nth, <- H2 at 1. rewrite (all_idx_nth [] H1). exact H2.
Qed.

Lemma inb_length s idx : inb s idx -> length idx = length s.
Proof. induction 1; cbn; congruence. Qed.

Lemma inb_nth s idx k : inb s idx -> k < length s -> nth k idx 0 < nth k s 0.
Proof.
  intros H; revert k; induction H as [|i n idx s Hi H IH]; intros k Hk; cbn in *; [lia|].
  destruct k; [exact Hi|apply IH; lia].
Qed.

Lemma inb_iff s idx : inb s idx <-> length idx = length s /\ forall k, k < length s -> nth k idx 0 < nth k s 0.
Proof.
  split; [intros H; split; [apply inb_length; exact H|intros k; apply inb_nth; exact H]|].
  intros [HL H]. revert s HL H; induction idx as [|i idx IH]; intros [|n s] HL H; cbn in HL; try discriminate; constructor.
  - apply (H 0). cbn. lia.
  - apply IH; [lia|]. intros k Hk. apply (H (S k)). cbn. lia.
Qed.

Lemma tab_wf {A} s (f : list nat -> A) : wf (tab s f).
Proof. unfold wf, tab; cbn. rewrite map_length. apply all_idx_length. Qed.

Lemma aget_tab {A} (d : A) s f idx : inb s idx -> aget d (tab s f) idx = f idx.
Proof.
  intros H. unfold aget, tab; cbn [shp dat].
  rewrite nth_indep with (d' := f []) by (rewrite map_length, all_idx_length; apply ravel_lt; exact H).
  rewrite map_nth, all_idx_nth by exact H. reflexivity.
Qed.

Lemma full_wf {A} s (v : A) : wf (full s v).
Proof. unfold wf, full; cbn. apply repeat_length. Qed.

Lemma aget_full {A} (d : A) s idx : aget d (full s d) idx = d.
Proof. unfold aget, full; cbn. apply nth_repeat. Qed.

Lemma arr_ext {A} (d : A) (a b : arr A) : wf a -> wf b -> shp a = shp b ->
  (forall idx, inb (shp a) idx -> aget d a idx = aget d b idx) -> a = b.
Proof.
  destruct a as [sa da], b as [sb db]. unfold wf, aget; cbn. intros Ha Hb <- H. f_equal.
  apply nth_ext with (d := d) (d' := d); [congruence|].
  intros k Hk. rewrite Ha in Hk. destruct (ravel_surj sa Hk) as (idx & H1 & <-). apply H; exact H1.
Qed.

Lemma tab_aget {A} (d : A) a : wf a -> tab (shp a) (aget d a) = a.
Proof.
  intros H. apply (@arr_ext _ d); [apply tab_wf|exact H|reflexivity|].
  intros idx Hi. cbn in Hi. apply aget_tab. exact Hi.
Qed.

Lemma tab_ext {A} s (f g : list nat -> A) : (forall idx, inb s idx -> f idx = g idx) -> tab s f = tab s g.
Proof. intros H. unfold tab. f_equal. apply map_ext_in. intros idx Hi. apply H, all_idx_in, Hi. Qed.

Lemma prodn_cons n l : prodn (n :: l) = n * prodn l.
Proof. reflexivity. Qed.

Lemma prodn_app l1 l2 : prodn (l1 ++ l2) = prodn l1 * prodn l2.
Proof.
  induction l1 as [|x l1 IH]; cbn [app]; [change (prodn []) with 1; lia|].
  rewrite !prodn_cons, IH. lia.
Qed.

Lemma prodn_repeat n c : prodn (repeat n c) = n ^ c.
Proof. induction c as [|c IH]; cbn; [reflexivity|]. fold (prodn (repeat n c)). rewrite IH. reflexivity. Qed.

Lemma ravel_app s1 s2 i1 i2 : inb s1 i1 -> ravel (s1 ++ s2) (i1 ++ i2) = ravel s1 i1 * prodn s2 + ravel s2 i2.
Proof.
  induction 1 as [|i n idx s Hi H IH]; [reflexivity|]. cbn [app ravel].
  rewrite IH, prodn_app. ring.
Qed.

Lemma prodn_concat ss : prodn (concat ss) = prodn (map prodn ss).
Proof. induction ss as [|s ss IH]; cbn; [reflexivity|]. rewrite prodn_app, IH. reflexivity. Qed.

Lemma ravel_concat ss is : Forall2 inb ss is ->
  ravel (concat ss) (concat is) = ravel (map prodn ss) (map (fun p => ravel (fst p) (snd p)) (combine ss is)).
Proof.
  induction 1 as [|s i ss is Hsi H IH]; cbn; [reflexivity|].
  rewrite ravel_app by exact Hsi. rewrite IH. f_equal. f_equal. apply prodn_concat.
Qed.

Lemma inb_concat ss is : Forall2 inb ss is -> inb (concat ss) (concat is).
Proof. induction 1 as [|s i ss is Hsi H IH]; cbn; [constructor|]. apply Forall2_app; assumption. Qed.

Lemma inb_flat ss is : Forall2 inb ss is ->
  inb (map prodn ss) (map (fun p => ravel (fst p) (snd p)) (combine ss is)).
Proof.
  induction 1 as [|s i ss is Hsi H IH]; cbn; [constructor|]. constructor; [|exact IH]. apply ravel_lt. exact Hsi.
Qed.

Lemma aget_reshape {A} (d : A) a s b idx : reshape a s = Ok b -> aget d b idx = nth (ravel s idx) (dat a) d.
Proof. unfold reshape. destruct (_ =? _); [|discriminate]. intros H; injection H as <-. reflexivity. Qed.

(** Permutations of axes. *)
Lemma memb_in x l : memb x l = true <-> In x l.
Proof.
  unfold memb. rewrite existsb_exists. split; [intros (y & H & E); apply Nat.eqb_eq in E; subst; exact H|].
  intros H; exists x; split; [exact H|apply Nat.eqb_refl].
Qed.

Lemma is_perm_iff n axes : is_perm n axes = true <-> Permutation (seq 0 n) axes.
Proof.
  unfold is_perm. rewrite andb_true_iff, Nat.eqb_eq, forallb_forall. split.
  - intros [HL H]. apply NoDup_Permutation_bis; [apply seq_NoDup|rewrite seq_length; lia|].
    intros x Hx. apply memb_in, H, Hx.
  - intros H. split; [rewrite <- (Permutation_length H); apply seq_length|].
    intros x Hx. apply memb_in. apply (Permutation_in x H Hx).
Qed.

Lemma index_of_nth l x k : index_of x l = Some k -> k < length l /\ nth k l 0 = x.
Proof.
  revert k; induction l as [|y l IH]; intros k; cbn; [discriminate|].
  destruct (Nat.eqb_spec x y) as [->|Hne]; [intros H; injection H as <-; split; [lia|reflexivity]|].
  destruct (index_of x l) as [m|]; cbn; [|discriminate]. intros H; injection H as <-.
  destruct (IH m eq_refl). split; [lia|assumption].
Qed.

Lemma index_of_nodup l k : NoDup l -> k < length l -> index_of (nth k l 0) l = Some k.
Proof.
  intros Hnd; revert k; induction Hnd as [|y l Hy Hnd IH]; intros k Hk; cbn in *; [lia|].
  destruct k as [|k]; [rewrite Nat.eqb_refl; reflexivity|].
  destruct (Nat.eqb_spec (nth k l 0) y) as [E|Hne].
  - exfalso; apply Hy. rewrite <- E. apply nth_In. lia.
  - rewrite IH by lia. reflexivity.
Qed.

Lemma index_of_in l x : In x l -> exists k, index_of x l = Some k.
Proof.
  induction l as [|y l IH]; intros H; [destruct H|]. cbn. destruct (Nat.eqb_spec x y); [eauto|].
  destruct H as [->|H]; [contradiction|]. destruct (IH H) as [k ->]. cbn. eauto.
Qed.

Lemma perm_seq_nodup n p : Permutation (seq 0 n) p -> NoDup p.
Proof. intros H. apply (Permutation_NoDup H), seq_NoDup. Qed.

Lemma perm_seq_lt n p k : Permutation (seq 0 n) p -> In k p <-> k < n.
Proof.
  intros H. split; intros Hk.
  - apply (Permutation_in k (Permutation_sym H)) in Hk. apply in_seq in Hk. lia.
  - apply (Permutation_in k H). apply in_seq. lia.
Qed.

Lemma perm_seq_length n p : Permutation (seq 0 n) p -> length p = n.
Proof. intros H. rewrite <- (Permutation_length H). apply seq_length. Qed.

Lemma unperm_length axes idx : length (unperm axes idx) = length axes.
Proof. unfold unperm. rewrite map_length, seq_length. reflexivity. Qed.

Lemma unperm_nth axes idx k : Permutation (seq 0 (length axes)) axes -> k < length axes ->
  nth (nth k axes 0) (unperm axes idx) 0 = nth k idx 0.
Proof.
  intros Hp Hk. unfold unperm.
  assert (Hlt : nth k axes 0 < length axes) by (apply (@perm_seq_lt _ _ _ Hp), nth_In; exact Hk).
  set (f := fun i => match index_of i axes with Some k0 => nth k0 idx 0 | None => 0 end).
  rewrite nth_indep with (d' := f 0) by (rewrite map_length, seq_length; exact Hlt).
  rewrite (map_nth f), seq_nth by exact Hlt. cbn. unfold f.
  rewrite index_of_nodup; [reflexivity|apply (@perm_seq_nodup _ _ Hp)|exact Hk].
Qed.

Lemma gather_unperm axes idx : Permutation (seq 0 (length axes)) axes -> length idx = length axes ->
  map (fun k => nth k (unperm axes idx) 0) axes = idx.
Proof.
  intros Hp HL. apply nth_ext with (d := 0) (d' := 0); [rewrite map_length; congruence|].
  intros k Hk. rewrite map_length in Hk.
  rewrite nth_indep with (d' := nth 0 (unperm axes idx) 0) by (rewrite map_length; exact Hk).
  rewrite (map_nth (fun k => nth k (unperm axes idx) 0)). apply unperm_nth; assumption.
Qed.

Lemma nth_map_seq {B} (f : nat -> B) d n k : k < n -> nth k (map f (seq 0 n)) d = f k.
Proof.
  intros H. rewrite nth_indep with (d' := f 0) by (rewrite map_length, seq_length; exact H).
  rewrite map_nth, seq_nth by exact H. reflexivity.
Qed.

Lemma nth_map_lt {B C} (f : B -> C) l k d d' : k < length l -> nth k (map f l) d = f (nth k l d').
Proof.
  intros H. rewrite nth_indep with (d' := f d') by (rewrite map_length; exact H). apply map_nth.
Qed.

Lemma unperm_gather axes idx : Permutation (seq 0 (length axes)) axes -> length idx = length axes ->
  unperm axes (map (fun k => nth k idx 0) axes) = idx.
Proof.
  intros Hp HL. apply nth_ext with (d := 0) (d' := 0); [rewrite unperm_length; congruence|].
  intros k Hk. rewrite unperm_length in Hk.
  unfold unperm. rewrite nth_map_seq by exact Hk.
  destruct (index_of_in axes k) as [j Hj]; [apply (@perm_seq_lt _ _ _ Hp); exact Hk|].
  rewrite Hj. apply index_of_nth in Hj as [Hj1 Hj2].
  rewrite (nth_map_lt (fun k => nth k idx 0) axes 0 0 Hj1), Hj2. reflexivity.
Qed.

Lemma unperm_inb s axes idx : Permutation (seq 0 (length s)) axes ->
  inb (map (fun k => nth k s 0) axes) idx -> inb s (unperm axes idx).
Proof.
  intros Hp Hi. pose proof (@perm_seq_length _ _ Hp) as HL. apply inb_iff. rewrite unperm_length. split; [exact HL|].
  intros k Hk. unfold unperm. rewrite nth_map_seq by lia.
  destruct (index_of_in axes k) as [j Hj]; [apply (@perm_seq_lt _ _ _ Hp); exact Hk|].
  rewrite Hj. apply index_of_nth in Hj as [Hj1 Hj2].
  apply inb_nth with (k := j) in Hi; [|rewrite map_length; exact Hj1].
  rewrite (nth_map_lt (fun k => nth k s 0) axes 0 0 Hj1), Hj2 in Hi. exact Hi.
Qed.

Lemma gather_inb s axes idx : (forall k, In k axes -> k < length s) -> inb s idx ->
  inb (map (fun k => nth k s 0) axes) (map (fun k => nth k idx 0) axes).
Proof.
  intros Hl Hi. induction axes as [|x axes IH]; cbn; constructor.
  - apply inb_nth; [exact Hi|apply Hl; left; reflexivity].
  - apply IH. intros k Hk; apply Hl; right; exact Hk.
Qed.

Lemma transpose_ok {A} (d : A) a axes : Permutation (seq 0 (length (shp a))) axes ->
  transpose d a axes = Ok (tab (map (fun k => nth k (shp a) 0) axes) (fun idx => aget d a (unperm axes idx))).
Proof. intros H. unfold transpose. apply is_perm_iff in H. rewrite H. reflexivity. Qed.

Lemma transpose_inv {A} (d : A) a axes b : transpose d a axes = Ok b ->
  Permutation (seq 0 (length (shp a))) axes /\ shp b = map (fun k => nth k (shp a) 0) axes /\ wf b /\
  (forall idx, inb (shp b) idx -> aget d b idx = aget d a (unperm axes idx)).
Proof.
  unfold transpose. destruct (is_perm _ _) eqn:E; [|discriminate]. apply is_perm_iff in E.
  intros H; injection H as <-. repeat split; [exact E|apply tab_wf|].
  intros idx Hi. exact (@aget_tab A d _ (fun idx => aget d a (unperm axes idx)) idx Hi).
Qed.

(** Flat writes. *)
Lemma lupd_length {A} k (v : A) l : length (lupd k v l) = length l.
Proof. revert k; induction l as [|x l IH]; intros [|k]; cbn; congruence. Qed.

Lemma lupd_nth {A} k (v : A) l j d : nth j (lupd k v l) d = if (j =? k) && (k <? length l) then v else nth j l d.
Proof.
  revert k j; induction l as [|x l IH]; intros k j; cbn [lupd].
  - replace (k <? length (@nil A)) with false by (destruct k; reflexivity). rewrite andb_false_r. reflexivity.
  - destruct k as [|k].
    + destruct j; [reflexivity|]. reflexivity.
    + destruct j as [|j]; [reflexivity|]. cbn [nth]. rewrite IH. reflexivity.
Qed.

Lemma writes_length {A} (l : list A) ws : length (writes l ws) = length l.
Proof.
  unfold writes. revert l; induction ws as [|w ws IH]; intros l; [reflexivity|].
  cbn [fold_left]. rewrite IH. apply lupd_length.
Qed.

Lemma writes_app {A} (l : list A) w1 w2 : writes l (w1 ++ w2) = writes (writes l w1) w2.
Proof. unfold writes. apply fold_left_app. Qed.

Lemma writes_notin {A} (l : list A) ws k d : ~ In k (map fst ws) -> nth k (writes l ws) d = nth k l d.
Proof.
  unfold writes. revert l; induction ws as [|[p v] ws IH]; intros l H; [reflexivity|].
  cbn [fold_left fst snd]. rewrite IH by (intros Hk; apply H; right; exact Hk).
  rewrite lupd_nth. destruct (Nat.eqb_spec k p) as [->|]; [exfalso; apply H; left; reflexivity|]. reflexivity.
Qed.

Lemma writes_in {A} (l : list A) ws k v d : k < length l -> In (k, v) ws ->
  (forall v', In (k, v') ws -> v' = v) -> nth k (writes l ws) d = v.
Proof.
  intros Hk. revert l Hk; induction ws as [|[p u] ws IH]; intros l Hk Hin Huniq; [destruct Hin|].
  unfold writes. cbn [fold_left fst snd]. fold (writes (lupd p u l) ws).
  destruct (in_dec Nat.eq_dec k (map fst ws)) as [Hi|Hn].
  - apply in_map_iff in Hi as ([k' v'] & E & Hi). cbn in E. subst k'.
    assert (v' = v) by (apply Huniq; right; exact Hi). subst v'.
    apply IH; [rewrite lupd_length; exact Hk|exact Hi|]. intros v' H'. apply Huniq. right; exact H'.
  - rewrite writes_notin by exact Hn. rewrite lupd_nth.
    destruct Hin as [H|Hin]; [|exfalso; apply Hn; apply in_map_iff; exists (k, v); auto].
    injection H as -> ->. rewrite Nat.eqb_refl. destruct (Nat.ltb_spec k (length l)); [reflexivity|lia].
Qed.

Lemma put_writes_in {A} (d : A) inds vals p v : length vals = length inds ->
  In (p, v) (put_writes d inds vals) <-> exists k, k < length inds /\ p = nth k inds 0 /\ v = nth k vals d.
Proof.
  intros HL. unfold put_writes. destruct vals as [|v0 vals0] eqn:E.
  - destruct inds; [|discriminate]. cbn. split; [intros []|intros (k & Hk & _); lia].
  - rewrite <- E in *. rewrite in_map_iff. split.
    + intros (k & Hk & Hin). apply in_seq in Hin. injection Hk as <- <-. exists k.
      split; [lia|]. rewrite Nat.mod_small by lia. auto.
    + intros (k & Hk & -> & ->). exists k. split; [rewrite Nat.mod_small by lia; reflexivity|apply in_seq; lia].
Qed.
