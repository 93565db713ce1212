(** Normal form of the axis grouping used by compress/decompress/symmetrise. *)
From Verif Require Import Base ListAux PermSpec PermModel TrilProofs SpinProofs StringPermProofs ArrModel ArrProofs TensorModel TensorSpec.
From Coq Require Import Sorted.
Set Implicit Arguments.

Lemma sorted_unique {A} (R : A -> A -> Prop) (Hirr : forall x, ~ R x x) (Hasym : forall x y, R x y -> ~ R y x) l1 l2 :
  StronglySorted R l1 -> StronglySorted R l2 -> Permutation l1 l2 -> l1 = l2.
Proof.
  intros H1; revert l2; induction H1 as [|x l1 Hs IH Hf]; intros l2 H2 HP.
  - apply Permutation_nil in HP. congruence.
  - destruct l2 as [|y l2]; [apply Permutation_sym, Permutation_nil in HP; discriminate|].
    inversion H2 as [|? ? Hs2 Hf2]; subst. rewrite Forall_forall in Hf, Hf2.
    assert (x = y).
    { assert (Hx : In x (y :: l2)) by (apply (Permutation_in x HP); left; reflexivity).
      assert (Hy : In y (x :: l1)) by (apply (Permutation_in y (Permutation_sym HP)); left; reflexivity).
      destruct Hx as [<-|Hx]; [reflexivity|]. destruct Hy as [<-|Hy]; [reflexivity|].
      exfalso. apply (Hasym x y); auto. }
    subst y. f_equal. apply IH; [exact Hs2|]. apply Permutation_cons_inv with (a := x). exact HP.
Qed.

Lemma dedup_in l x : In x (dedup l) <-> In x l.
Proof.
  induction l as [|y l IH]; cbn [dedup In]; [tauto|]. rewrite filter_In, IH.
  destruct (Nat.eqb_spec y x) as [->|Hne]; cbn; intuition congruence.
Qed.

Lemma dedup_nodup l : NoDup (dedup l).
Proof.
  induction l as [|y l IH]; cbn [dedup]; constructor.
  - rewrite filter_In. intros [_ H]. rewrite Nat.eqb_refl in H. discriminate.
  - apply NoDup_filter. exact IH.
Qed.

Lemma insert_sorted_sorted x l : StronglySorted le l -> StronglySorted le (insert_sorted x l).
Proof.
  induction 1 as [|y l Hs IH Hf]; cbn; [repeat constructor|].
  destruct (Nat.leb_spec x y).
  - constructor; [constructor; assumption|]. constructor; [assumption|].
    rewrite Forall_forall in *. intros z Hz. specialize (Hf z Hz). lia.
  - constructor; [exact IH|]. rewrite Forall_forall in *. intros z Hz.
    apply (Permutation_in z (Permutation_sym (insert_sorted_perm x l))) in Hz. destruct Hz as [<-|Hz]; [lia|auto].
Qed.

Lemma sorted_py_sorted l : StronglySorted le (sorted_py l).
Proof. induction l as [|x l IH]; cbn; [constructor|]. apply insert_sorted_sorted. exact IH. Qed.

Lemma sorted_le_lt l : NoDup l -> StronglySorted le l -> StronglySorted lt l.
Proof.
  induction 2 as [|x l Hs IH Hf]; [constructor|]. inversion H as [|? ? Hx Hl]; subst. constructor; [auto|].
  rewrite Forall_forall in *. intros y Hy. specialize (Hf y Hy). assert (x <> y) by congruence. lia.
Qed.

Lemma sorted_set_sorted s : StronglySorted lt (sorted_set s).
Proof.
  unfold sorted_set. apply sorted_le_lt; [|apply sorted_py_sorted].
  apply (Permutation_NoDup (sorted_py_perm (dedup s))), dedup_nodup.
Qed.

Lemma sorted_set_in s c : In c (sorted_set s) <-> In c s.
Proof.
  unfold sorted_set. rewrite <- (dedup_in s). split; apply Permutation_in; [symmetry|]; apply sorted_py_perm.
Qed.

Lemma sorted_lt_unique l1 l2 : StronglySorted lt l1 -> StronglySorted lt l2 -> Permutation l1 l2 -> l1 = l2.
Proof. apply sorted_unique; intros; lia. Qed.

Lemma sorted_lt_nodup l : StronglySorted lt l -> NoDup l.
Proof.
  induction 1 as [|x l Hs IH Hf]; constructor; [|exact IH]. rewrite Forall_forall in Hf. intros H. specialize (Hf x H). lia.
Qed.

(** argsort *)
Definition lexk (key : nat -> nat) (i j : nat) : Prop := key i < key j \/ (key i = key j /\ i < j).

Lemma argins_perm key i l : Permutation (i :: l) (argins key i l).
Proof.
  induction l as [|j l IH]; cbn; [reflexivity|]. destruct (key i <=? key j); [reflexivity|].
  rewrite <- IH. constructor.
Qed.

Lemma argins_sorted key i l : (forall j, In j l -> i < j) -> StronglySorted (lexk key) l -> StronglySorted (lexk key) (argins key i l).
Proof.
  intros Hi H. induction H as [|j l Hs IH Hf]; cbn; [repeat constructor|].
  destruct (Nat.leb_spec (key i) (key j)).
  - constructor; [constructor; assumption|]. rewrite Forall_forall in *.
    assert (Hij : lexk key i j) by (unfold lexk; specialize (Hi j (or_introl eq_refl)); lia).
    intros z [<-|Hz]; [exact Hij|]. specialize (Hf z Hz). unfold lexk in *. specialize (Hi z (or_intror Hz)). lia.
  - constructor; [apply IH; intros z Hz; apply Hi; right; exact Hz|]. rewrite Forall_forall in *. intros z Hz.
    apply (Permutation_in z (Permutation_sym (argins_perm key i l))) in Hz. destruct Hz as [<-|Hz]; [|auto].
    left. exact H.
Qed.

Lemma argsort_key_spec key b n : let l := fold_right (argins key) [] (seq b n) in
  Permutation (seq b n) l /\ StronglySorted (lexk key) l.
Proof.
  cbv zeta. revert b; induction n as [|n IH]; intros b; cbn [seq fold_right]; [split; constructor|].
  destruct (IH (S b)) as [H1 H2]. split.
  - rewrite <- argins_perm. constructor. exact H1.
  - apply argins_sorted; [|exact H2]. intros j Hj. apply (Permutation_in j (Permutation_sym H1)), in_seq in Hj. lia.
Qed.

Lemma argsort_perm vals : Permutation (seq 0 (length vals)) (argsort vals).
Proof. apply argsort_key_spec. Qed.

Lemma argsort_unique vals l : Permutation (seq 0 (length vals)) l ->
  StronglySorted (lexk (fun i => nth i vals 0)) l -> argsort vals = l.
Proof.
  intros HP Hs. destruct (argsort_key_spec (fun i => nth i vals 0) 0 (length vals)) as [H1 H2].
  apply (@sorted_unique _ (lexk (fun i => nth i vals 0))).
  - unfold lexk. intros x. lia.
  - unfold lexk. intros x y. lia.
  - exact H2.
  - exact Hs.
  - unfold argsort, argsort_key. rewrite <- H1, HP. reflexivity.
Qed.

Lemma argsort_as_groups s : argsort s = concat (map (occ 0 s) (sorted_set s)).
Proof.
  assert (Hocc : forall c i, In i (occ 0 s c) <-> nth_error s i = Some c).
  { intros c i. rewrite occ_in, Nat.sub_0_r. intuition lia. }
  pose proof (sorted_set_sorted s) as Hss. pose proof (sorted_set_in s) as Hin.
  apply argsort_unique.
  - apply NoDup_Permutation; [apply seq_NoDup| |].
    + rewrite <- flat_map_concat_map. apply NoDup_flat_map_intro; [apply sorted_lt_nodup; exact Hss| |].
      * intros c _. apply sorted_lt_nodup, occ_sorted.
      * intros c c' i _ _ Hc Hc'. apply Hocc in Hc, Hc'. congruence.
    + intros i. rewrite in_seq, <- flat_map_concat_map, in_flat_map. split.
      * intros Hi. destruct (nth_error s i) as [c|] eqn:E.
        -- exists c. split; [apply Hin, (nth_error_In _ _ E)|apply Hocc; exact E].
        -- apply nth_error_None in E. lia.
      * intros (c & _ & Hc). apply Hocc in Hc. assert (i < length s) by (apply nth_error_Some; congruence). lia.
  - clear Hin. induction Hss as [|c l Hs IH Hf]; cbn; [constructor|].
    apply StronglySorted_app; [| exact IH |].
    + assert (G : forall l', (forall i, In i l' -> nth_error s i = Some c) -> StronglySorted lt l' ->
        StronglySorted (lexk (fun i => nth i s 0)) l').
      { intros l' Hl'. induction 1 as [|x l' Hx IHx Hfx]; constructor; [apply IHx; intros i Hi; apply Hl'; right; exact Hi|].
        rewrite Forall_forall in *. intros y Hy. right. split; [|auto].
        rewrite (nth_error_nth _ _ 0 (Hl' x (or_introl eq_refl))), (nth_error_nth _ _ 0 (Hl' y (or_intror Hy))). reflexivity. }
      apply G; [intros i; apply Hocc|apply occ_sorted].
    + intros i j Hi Hj. apply Hocc in Hi. rewrite <- flat_map_concat_map, in_flat_map in Hj. destruct Hj as (c' & Hc' & Hj).
      apply Hocc in Hj. left. rewrite (nth_error_nth _ _ 0 Hi), (nth_error_nth _ _ 0 Hj).
      rewrite Forall_forall in Hf. auto.
Qed.

(** rename *)
Lemma subs_loop_keys s tbl i : dkeys (subs_loop s tbl i) = dkeys tbl ++ filter (fun c => negb (memb c (dkeys tbl))) (dedup s).
Proof.
  revert tbl i; induction s as [|c s IH]; intros tbl i; cbn [subs_loop dedup filter].
  - rewrite app_nil_r. reflexivity.
  - unfold dmem. destruct (dget Nat.eq_dec c tbl) as [x|] eqn:E.
    + rewrite IH. f_equal.
      assert (Hc : memb c (dkeys tbl) = true).
      { apply memb_in. destruct (in_dec Nat.eq_dec c (dkeys tbl)) as [H|H]; [exact H|].
        apply (dget_none Nat.eq_dec) in H. congruence. }
      rewrite Hc. cbn [negb]. clear IH. induction (dedup s) as [|y l IHl]; [reflexivity|]. cbn [filter].
      destruct (Nat.eqb_spec c y) as [->|Hne]; cbn [negb filter].
      * rewrite Hc. cbn. exact IHl.
      * destruct (memb y (dkeys tbl)); cbn [negb]; [exact IHl|f_equal; exact IHl].
    + apply dget_none in E. rewrite IH, dkeys_dset_new by exact E.
      assert (Hc : memb c (dkeys tbl) = false).
      { destruct (memb c (dkeys tbl)) eqn:Em; [apply memb_in in Em; contradiction|reflexivity]. }
      rewrite Hc. cbn [negb]. rewrite <- app_assoc. f_equal. cbn [app]. f_equal.
      clear IH. induction (dedup s) as [|y l IHl]; [reflexivity|]. cbn [filter].
      assert (Hm : memb y (dkeys tbl ++ [c]) = memb y (dkeys tbl) || (c =? y)).
      { unfold memb. rewrite existsb_app. cbn. rewrite orb_false_r, (Nat.eqb_sym y c). reflexivity. }
      rewrite Hm. destruct (c =? y); cbn [negb filter orb].
      * rewrite orb_true_r. cbn. exact IHl.
      * rewrite orb_false_r. destruct (memb y (dkeys tbl)); cbn [negb]; [exact IHl|f_equal; exact IHl].
Qed.

Lemma subs_loop_vals s tbl i : i = length (dkeys tbl) -> NoDup (dkeys tbl) ->
  (forall j k, nth_error (dkeys tbl) j = Some k -> dget Nat.eq_dec k tbl = Some (97 + j)) ->
  forall j k, nth_error (dkeys (subs_loop s tbl i)) j = Some k -> dget Nat.eq_dec k (subs_loop s tbl i) = Some (97 + j).
Proof.
  revert tbl i; induction s as [|c s IH]; intros tbl i Hi Hnd H; cbn [subs_loop]; [exact H|].
  unfold dmem. destruct (dget Nat.eq_dec c tbl) as [x|] eqn:E; [apply IH; assumption|].
  pose proof E as E'. apply dget_none in E'. apply IH.
  - rewrite dkeys_dset_new, app_length by exact E'. cbn. lia.
  - apply dset_nodup. exact Hnd.
  - intros j k. rewrite dkeys_dset_new by exact E'. rewrite dget_dset. intros Hj.
    destruct (Nat.lt_ge_cases j (length (dkeys tbl))) as [Hl|Hl].
    + rewrite nth_error_app1 in Hj by exact Hl. destruct (Nat.eq_dec k c) as [->|Hne]; [|apply H; exact Hj].
      exfalso. apply E'. apply (nth_error_In _ _ Hj).
    + rewrite nth_error_app2 in Hj by exact Hl. destruct (j - length (dkeys tbl)) as [|m] eqn:Em; cbn in Hj; [|destruct m; discriminate].
      assert (c = k) by congruence. subst k. destruct (Nat.eq_dec c c); [|congruence]. f_equal. lia.
Qed.

Definition rank_in (l : list nat) (c : nat) : nat := match index_of c l with Some k => k | None => 0 end.

Lemma nth_error_of_nth (l : list nat) j k : j < length l -> nth j l 0 = k -> nth_error l j = Some k.
Proof. intros H <-. apply nth_error_nth'. exact H. Qed.

Lemma mapM_ok {A B} (f : A -> result B) (g : A -> B) l : (forall x, In x l -> f x = Ok (g x)) -> mapM f l = Ok (map g l).
Proof.
  induction l as [|x l IH]; intros H; cbn; [reflexivity|].
  rewrite (H x (or_introl eq_refl)), IH; [reflexivity|]. intros y Hy; apply H; right; exact Hy.
Qed.

Lemma rename_ok s : rename s = Ok (map (fun c => 97 + rank_in (dedup s) c) s).
Proof.
  apply mapM_ok. intros c Hc. pose proof (subs_loop_keys s [] 0) as Hk. cbn [dkeys map app] in Hk.
  assert (Hkeys : dkeys (subs_loop s [] 0) = dedup s).
  { rewrite Hk. clear. induction (dedup s) as [|x l IH]; [reflexivity|]. cbn. f_equal. exact IH. }
  destruct (index_of_in (dedup s) c) as [j Hj]; [apply dedup_in; exact Hc|].
  unfold rank_in. rewrite Hj. apply index_of_nth in Hj as [Hj1 Hj2].
  erewrite (@subs_loop_vals s [] 0 eq_refl (NoDup_nil _)); [reflexivity| |].
  - intros [|?] ?; discriminate.
  - rewrite Hkeys. apply nth_error_of_nth; assumption.
Qed.

Lemma rank_inj s c c' : In c s -> In c' s -> rank_in (dedup s) c = rank_in (dedup s) c' -> c = c'.
Proof.
  intros Hc Hc'. apply dedup_in in Hc, Hc'. unfold rank_in.
  destruct (index_of_in _ _ Hc) as [j Hj], (index_of_in _ _ Hc') as [j' Hj']. rewrite Hj, Hj'. intros ->.
  apply index_of_nth in Hj as [_ <-], Hj' as [_ <-]. reflexivity.
Qed.

Lemma rank_dedup l : NoDup l -> map (rank_in l) l = seq 0 (length l).
Proof.
  intros Hnd. apply nth_ext with (d := 0) (d' := 0); [rewrite map_length, seq_length; reflexivity|].
  intros k Hk. rewrite map_length in Hk. rewrite seq_nth by exact Hk.
  rewrite (nth_map_lt (rank_in l) l 0 0 Hk). unfold rank_in. rewrite index_of_nodup by assumption. reflexivity.
Qed.

Lemma dedup_map (f : nat -> nat) s : (forall x y, In x s -> In y s -> f x = f y -> x = y) -> dedup (map f s) = map f (dedup s).
Proof.
  induction s as [|c s IH]; intros Hinj; [reflexivity|]. cbn [map dedup]. rewrite IH by (intros; apply Hinj; try right; assumption).
  f_equal.
  assert (G : forall l, (forall y, In y l -> In y s) -> filter (fun y => negb (f c =? y)) (map f l) = map f (filter (fun y => negb (c =? y)) l)).
  { induction l as [|y l IHl]; intros Hl; [reflexivity|]. cbn [map filter].
    assert (E : (f c =? f y) = (c =? y)).
    { destruct (Nat.eqb_spec c y) as [->|Hne]; [apply Nat.eqb_refl|]. apply Nat.eqb_neq. intros H. apply Hne.
      apply Hinj; [left; reflexivity|right; apply Hl; left; reflexivity|exact H]. }
    rewrite E. destruct (c =? y); cbn; rewrite IHl by (intros z Hz; apply Hl; right; exact Hz); reflexivity. }
  apply G. intros y Hy. apply dedup_in. exact Hy.
Qed.

Definition ren (s : pystr) : pystr := map (fun c => 97 + rank_in (dedup s) c) s.
(** Axes carrying each character, characters in order of first appearance. *)
Definition groups (s : pystr) : list (list nat) := map (occ 0 s) (dedup s).

Lemma occ_map (f : nat -> nat) s c i : (forall x, In x s -> f x = f c -> x = c) -> occ i (map f s) (f c) = occ i s c.
Proof.
  revert i; induction s as [|x s IH]; intros i Hinj; [reflexivity|]. cbn [map occ].
  rewrite IH by (intros; apply Hinj; [right|]; assumption).
  destruct (Nat.eq_dec (f x) (f c)) as [E|E], (Nat.eq_dec x c) as [E'|E']; try reflexivity.
  - exfalso. apply E', Hinj; [left; reflexivity|exact E].
  - congruence.
Qed.

Lemma seq_shift_add b n a : map (fun k => b + k) (seq a n) = seq (b + a) n.
Proof.
  revert a; induction n as [|n IH]; intros a; [reflexivity|]. cbn [seq]. cbn [map]. f_equal. rewrite IH. f_equal. lia.
Qed.

Lemma ren_sorted_set s : sorted_set (ren s) = seq 97 (length (dedup s)).
Proof.
  unfold sorted_set, ren. rewrite dedup_map.
  - assert (E : map (fun c => 97 + rank_in (dedup s) c) (dedup s) = seq 97 (length (dedup s))).
    { rewrite <- (map_map (rank_in (dedup s)) (fun k => 97 + k)), rank_dedup by apply dedup_nodup.
      exact (seq_shift_add 97 (length (dedup s)) 0). }
    rewrite E. apply sorted_lt_unique; [|apply seq_sorted|symmetry; apply sorted_py_perm].
    apply sorted_le_lt; [|apply sorted_py_sorted]. apply (Permutation_NoDup (sorted_py_perm _)), seq_NoDup.
  - intros x y Hx Hy E. apply (@rank_inj s); auto. cbv beta in E. lia.
Qed.

Lemma ren_groups s : map (occ 0 (ren s)) (sorted_set (ren s)) = groups s.
Proof.
  rewrite ren_sorted_set. unfold groups.
  assert (E : seq 97 (length (dedup s)) = map (fun c => 97 + rank_in (dedup s) c) (dedup s)).
  { rewrite <- (map_map (rank_in (dedup s)) (fun k => 97 + k)), rank_dedup by apply dedup_nodup.
    symmetry. exact (seq_shift_add 97 (length (dedup s)) 0). }
  rewrite E, map_map. apply map_ext_in. intros c Hc. rewrite dedup_in in Hc.
  unfold ren. apply (occ_map (fun c => 97 + rank_in (dedup s) c)). intros x Hx Hxc. apply (@rank_inj s); auto. cbv beta in Hxc. lia.
Qed.

Lemma ren_argsort s : argsort (ren s) = concat (groups s).
Proof. rewrite argsort_as_groups, ren_groups. reflexivity. Qed.

Lemma ren_length s : length (ren s) = length s.
Proof. apply map_length. Qed.

Lemma groups_perm s : Permutation (seq 0 (length s)) (concat (groups s)).
Proof. rewrite <- ren_argsort, <- (ren_length s). apply argsort_perm. Qed.

Lemma groups_in s g i : In g (groups s) -> In i g -> i < length s /\ forall j, In j g <-> j < length s /\ nth j s 0 = nth i s 0.
Proof.
  intros Hg Hi. unfold groups in Hg. apply in_map_iff in Hg as (c & <- & Hc).
  apply occ_in in Hi as [_ Hi]. rewrite Nat.sub_0_r in Hi.
  assert (Hlt : i < length s) by (apply nth_error_Some; congruence). split; [exact Hlt|].
  intros j. rewrite occ_in, Nat.sub_0_r, (nth_error_nth _ _ 0 Hi). split.
  - intros [_ Hj]. assert (j < length s) by (apply nth_error_Some; congruence). split; [assumption|]. apply (nth_error_nth _ _ 0 Hj).
  - intros [Hj E]. split; [lia|]. rewrite <- E. apply nth_error_nth'. exact Hj.
Qed.

Lemma groups_sorted s g : In g (groups s) -> StronglySorted lt g /\ g <> [].
Proof.
  intros Hg. unfold groups in Hg. apply in_map_iff in Hg as (c & <- & Hc). split; [apply occ_sorted|].
  rewrite dedup_in in Hc. apply In_nth_error in Hc as [i Hi]. intros E.
  assert (H : In i (occ 0 s c)) by (apply occ_in; rewrite Nat.sub_0_r; split; [lia|exact Hi]). rewrite E in H. destruct H.
Qed.

(** Every axis belongs to exactly one group. *)
Lemma groups_cover s i : i < length s -> exists g, In g (groups s) /\ In i g.
Proof.
  intros Hi. assert (H : In i (concat (groups s))) by (apply (Permutation_in i (groups_perm s)), in_seq; lia).
  apply in_concat in H. destruct H as (g & H1 & H2). eauto.
Qed.

(** group_axes *)

(** Extent and multiplicity of each group. *)
Definition group_ncs (s : pystr) (shape : list nat) : list (nat * nat) :=
  map (fun g => (nth (hd 0 g) shape 0, length g)) (groups s).

Lemma sizes_loop_ok l d :
  (forall c n m, In (c, n) l -> In (c, m) l -> n = m) ->
  (forall c n m, In (c, n) l -> dget Nat.eq_dec c d = Some m -> n = m) ->
  exists d', sizes_loop l d = Ok d' /\ (forall c n, In (c, n) l -> dget Nat.eq_dec c d' = Some n) /\
    (forall c n, dget Nat.eq_dec c d = Some n -> dget Nat.eq_dec c d' = Some n).
Proof.
  revert d; induction l as [|[c n] l IH]; intros d H1 H2; cbn [sizes_loop].
  - exists d. repeat split; auto. intros c n [].
  - destruct (dget Nat.eq_dec c d) as [m|] eqn:E.
    + assert (n = m) by (apply (H2 c); [left; reflexivity|exact E]). subst m. rewrite Nat.eqb_refl.
      destruct (IH d) as (d' & Hd & Ha & Hb).
      * intros c' a b Ha Hb. apply (H1 c'); right; assumption.
      * intros c' a b Ha Hb. apply (H2 c'); [right|]; assumption.
      * exists d'. repeat split; auto. intros c' a [Ea|Ha']; [injection Ea as <- <-; auto|auto].
    + destruct (IH (dset Nat.eq_dec c n d)) as (d' & Hd & Ha & Hb).
      * intros c' a b Ha Hb. apply (H1 c'); right; assumption.
      * intros c' a b Ha. rewrite dget_dset. destruct (Nat.eq_dec c' c) as [->|].
        -- intros Hb; injection Hb as <-. apply (H1 c); [right; exact Ha|left; reflexivity].
        -- apply H2. right; exact Ha.
      * exists d'. repeat split; auto.
        -- intros c' a [Ea|Ha']; [|auto]. injection Ea as <- <-. apply Hb. rewrite dget_dset. destruct (Nat.eq_dec c c); congruence.
        -- intros c' a Ha'. apply Hb. rewrite dget_dset. destruct (Nat.eq_dec c' c) as [->|]; congruence.
Qed.

Lemma permute_string_perm s p : (forall i, In i p -> i < length s) -> permute_string s p = Ok (map (fun i => nth i s 0) p).
Proof.
  intros H. apply mapM_ok. intros i Hi. rewrite (nth_error_nth' s 0 (H i Hi)). reflexivity.
Qed.

Lemma combine_map {A B C} (f : A -> B) (g : A -> C) l : combine (map f l) (map g l) = map (fun x => (f x, g x)) l.
Proof. induction l as [|x l IH]; cbn; congruence. Qed.

Lemma map_const {A B} (f : A -> B) c l : (forall x, In x l -> f x = c) -> map f l = repeat c (length l).
Proof. induction l as [|x l IH]; intros H; cbn; [reflexivity|]. rewrite H, IH; [reflexivity|..]; intros; try apply H; cbn; auto. Qed.

Lemma group_shape s shape : extents_ok s shape ->
  map (fun k => nth k shape 0) (concat (groups s)) = flat_map (fun nc => repeat (fst nc) (snd nc)) (group_ncs s shape).
Proof.
  intros [HL He]. unfold group_ncs. rewrite concat_map, flat_map_concat_map, !map_map. f_equal.
  apply map_ext_in. intros g Hg. cbn [fst snd]. apply map_const. intros x Hx.
  destruct (groups_sorted _ _ Hg) as [_ Hne]. destruct g as [|x0 g]; [contradiction|]. cbn [hd].
  destruct (groups_in _ _ _ Hg Hx) as [Hlt Hiff]. destruct (proj1 (Hiff x0) (or_introl eq_refl)) as [H0 E].
  apply He; [exact Hlt|exact H0|congruence].
Qed.

Lemma count_perm s p c : Permutation (seq 0 (length s)) p -> count (map (fun i => nth i s 0) p) c = length (occ 0 s c).
Proof.
  intros H. unfold count. rewrite occ_length.
  assert (HP : Permutation (map (fun i => nth i s 0) p) s).
  { rewrite <- H. rewrite map_nth_seq. reflexivity. }
  rewrite (Permutation_count_occ Nat.eq_dec) in HP. apply HP.
Qed.

Lemma sorted_set_perm s t : Permutation s t -> sorted_set s = sorted_set t.
Proof.
  intros H. apply sorted_lt_unique; [apply sorted_set_sorted..|].
  apply NoDup_Permutation; [apply sorted_lt_nodup, sorted_set_sorted..|].
  intros x. rewrite !sorted_set_in. split; apply Permutation_in; [|symmetry]; exact H.
Qed.

Lemma group_axes_ok {A} (d : A) s (a : arr A) : extents_ok s (shp a) ->
  group_axes d (ren s) a =
    Ok (mkarr (map (fun nc => fst nc ^ snd nc) (group_ncs s (shp a)))
          (dat (tab (flat_map (fun nc => repeat (fst nc) (snd nc)) (group_ncs s (shp a)))
                    (fun idx => aget d a (unperm (concat (groups s)) idx)))),
        concat (groups s), group_ncs s (shp a)).
Proof.
  intros Hext. pose proof Hext as [HL He]. pose proof (groups_perm s) as HP.
  unfold group_axes. rewrite ren_argsort.
  rewrite transpose_ok by (rewrite HL; exact HP). cbn [bind].
  rewrite (group_shape Hext).
  rewrite permute_string_perm by (intros i Hi; rewrite ren_length; apply (proj1 (perm_seq_lt _ i HP) Hi)). cbn [bind].
  set (sub' := map (fun i => nth i (ren s) 0) (concat (groups s))).
  cbn [tab shp].
  assert (Hsub' : Permutation (ren s) sub').
  { unfold sub'. rewrite <- HP. rewrite <- (ren_length s), map_nth_seq. reflexivity. }
  assert (Hss : sorted_set sub' = sorted_set (ren s)) by (symmetry; apply sorted_set_perm; exact Hsub').
  rewrite <- (group_shape Hext). unfold sub' at 1. rewrite combine_map.
  assert (Hren : forall i j, i < length s -> j < length s -> nth i (ren s) 0 = nth j (ren s) 0 -> nth i s 0 = nth j s 0).
  { intros i j Hi Hj. unfold ren. rewrite !(nth_map_lt (fun c => 97 + rank_in (dedup s) c) s 0 0) by assumption.
    intros E. apply (@rank_inj s); [apply nth_In; assumption..|lia]. }
  destruct (@sizes_loop_ok (map (fun x => (nth x (ren s) 0, nth x (shp a) 0)) (concat (groups s))) []) as (sz & Hsz & Hget & _).
  - intros c n m H1 H2. apply in_map_iff in H1 as (i & E1 & Hi), H2 as (j & E2 & Hj).
    assert (Hi' := proj1 (perm_seq_lt _ i HP) Hi). assert (Hj' := proj1 (perm_seq_lt _ j HP) Hj).
    injection E1 as E1 <-. injection E2 as E2 <-. apply He; [exact Hi'|exact Hj'|]. apply Hren; auto. congruence.
  - intros c n m _ H. discriminate.
  - rewrite Hsz. cbn [bind]. rewrite Hss.
    assert (Hns : mapM (size_of sz) (sorted_set (ren s)) = Ok (map (fun g => nth (hd 0 g) (shp a) 0) (groups s))).
    { rewrite <- ren_groups, map_map. apply mapM_ok. intros c Hc. unfold size_of.
      rewrite sorted_set_in in Hc.
      assert (Hne : exists i, In i (occ 0 (ren s) c)).
      { apply In_nth_error in Hc as [i Hi]. exists i. apply occ_in. rewrite Nat.sub_0_r. split; [lia|exact Hi]. }
      destruct (occ 0 (ren s) c) as [|i0 l0] eqn:Eo; [destruct Hne as [i []]|]. cbn [hd].
      assert (Hi0 : In i0 (occ 0 (ren s) c)) by (rewrite Eo; left; reflexivity).
      apply occ_in in Hi0 as [_ Hi0]. rewrite Nat.sub_0_r in Hi0.
      assert (Hlt : i0 < length s) by (rewrite <- (ren_length s); apply nth_error_Some; congruence).
      rewrite (Hget c (nth i0 (shp a) 0)); [reflexivity|].
      apply in_map_iff. exists i0. split; [rewrite (nth_error_nth _ _ 0 Hi0); reflexivity|].
      apply (proj2 (perm_seq_lt _ i0 HP) Hlt). }
    rewrite Hns. cbn [bind].
    assert (Hcs : map (count sub') (sorted_set (ren s)) = map (@length nat) (groups s)).
    { rewrite <- ren_groups, map_map. apply map_ext. intros c. apply count_perm. rewrite ren_length. exact HP. }
    rewrite Hcs, combine_map. fold (group_ncs s (shp a)).
    assert (Hprod : prodn (map (fun nc => fst nc ^ snd nc) (group_ncs s (shp a))) =
                    prodn (map (fun k => nth k (shp a) 0) (concat (groups s)))).
    { rewrite (group_shape Hext), flat_map_concat_map, prodn_concat, map_map. f_equal. apply map_ext. intros [n c].
      cbn. symmetry. apply prodn_repeat. }
    unfold reshape. cbn [shp tab]. rewrite Hprod, Nat.eqb_refl. cbn [bind]. reflexivity.
Qed.
