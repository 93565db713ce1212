(** Proofs about permutations_with_signs. *)
From Verif Require Import Base ListAux PermSpec PermModel PermSign.
Set Implicit Arguments.

(* ---------- permutations_with_signs ---------- *)

Lemma insert_at_map {A B} (f : A -> B) i x l : map f (insert_at i x l) = insert_at i (f x) (map f l).
Proof. unfold insert_at. rewrite map_app, firstn_map, skipn_map. reflexivity. Qed.

Lemma insert_all_map {A B} (f : A -> B) x items i :
  map (map f) (insert_all i x items) = insert_all i (f x) (map (map f) items).
Proof.
  revert i; induction items as [|it items IH]; intros i; [reflexivity|].
  cbn [insert_all map]. rewrite map_app, IH, map_map, map_length. f_equal.
  apply map_ext. intros j. apply insert_at_map.
Qed.

Lemma perms_rev_map {A B} (f : A -> B) l : perms_rev (map f l) = map (map f) (perms_rev l).
Proof. induction l as [|x l IH]; [reflexivity|]. cbn [perms_rev map]. rewrite IH, insert_all_map. reflexivity. Qed.

Lemma attach_signs_map {A B} (f : A -> B) l i :
  attach_signs i (map f l) = map (fun p => (f (fst p), snd p)) (attach_signs i l).
Proof. revert i; induction l as [|x l IH]; intros i; [reflexivity|]. cbn [attach_signs map fst snd]. rewrite IH. reflexivity. Qed.

Lemma pws_map {A B} (f : A -> B) l :
  permutations_with_signs (map f l) = map (fun p => (map f (fst p), snd p)) (permutations_with_signs l).
Proof.
  unfold permutations_with_signs. rewrite <- map_rev, perms_rev_map, attach_signs_map. reflexivity.
Qed.

Lemma attach_signs_fst {A} (l : list A) i : map fst (attach_signs i l) = l.
Proof. revert i; induction l as [|x l IH]; intros i; [reflexivity|]. cbn. rewrite IH. reflexivity. Qed.

Lemma insert_at_perm {A} i (x : A) l : Permutation (x :: l) (insert_at i x l).
Proof.
  unfold insert_at. cbn [app].
  rewrite <- Permutation_middle, firstn_skipn. reflexivity.
Qed.

Lemma insert_all_in {A} (x : A) items i p :
  In p (insert_all i x items) <-> exists it j, In it items /\ j <= length it /\ p = insert_at j x it.
Proof.
  revert i; induction items as [|it items IH]; intros i; cbn [insert_all].
  - split; [intros []|intros (it & j & [] & _)].
  - rewrite in_app_iff, IH, in_map_iff. split.
    + intros [(j & Hp & Hj)|(it' & j & Hin & Hj & Hp)].
      * exists it, j. assert (Hj' : In j (seq 0 (length it + 1))).
        { destruct (Nat.odd i); [exact Hj|apply in_rev; exact Hj]. }
        apply in_seq in Hj'. repeat split; [left; reflexivity|lia|congruence].
      * exists it', j. repeat split; [right|..]; assumption.
    + intros (it' & j & [->|Hin] & Hj & Hp).
      * left. exists j. split; [congruence|].
        assert (Hj' : In j (seq 0 (length it' + 1))) by (apply in_seq; lia).
        destruct (Nat.odd i); [exact Hj'|apply -> in_rev; exact Hj'].
      * right. exists it', j. auto.
Qed.

Lemma perms_rev_in {A} (l p : list A) : In p (perms_rev l) <-> Permutation l p.
Proof.
  revert p; induction l as [|x l IH]; intros p; cbn [perms_rev].
  - split; [intros [<-|[]]; constructor|]. intros H. apply Permutation_nil in H. left. congruence.
  - rewrite insert_all_in. split.
    + intros (it & j & Hin & _ & ->). apply IH in Hin. rewrite Hin. apply insert_at_perm.
    + intros H. assert (Hx : In x p) by (apply (Permutation_in x H); left; reflexivity).
      apply in_split in Hx as (p1 & p2 & ->).
      exists (p1 ++ p2), (length p1). repeat split.
      * apply IH. apply Permutation_cons_app_inv in H. exact H.
      * rewrite app_length. lia.
      * unfold insert_at. rewrite firstn_app, skipn_app, firstn_all, skipn_all, Nat.sub_diag.
        cbn. rewrite app_nil_r. reflexivity.
Qed.

Lemma insert_all_perm_flat {A} (x : A) items i :
  Permutation (insert_all i x items)
    (flat_map (fun it => map (fun j => insert_at j x it) (seq 0 (length it + 1))) items).
Proof.
  revert i; induction items as [|it items IH]; intros i; cbn [insert_all flat_map]; [constructor|].
  apply Permutation_app; [|apply IH].
  apply Permutation_map. destruct (Nat.odd i); [reflexivity|].
  symmetry. apply Permutation_rev.
Qed.

Lemma insert_at_inj {A} (x : A) a b i j : ~ In x a -> ~ In x b -> i <= length a -> j <= length b ->
  insert_at i x a = insert_at j x b -> i = j /\ a = b.
Proof.
  unfold insert_at. cbn [app].
  revert b i j. induction a as [|u a IH]; intros b i j Ha Hb Hi Hj H.
  - cbn in Hi. assert (i = 0) by lia; subst i. cbn in H.
    destruct j as [|j]; cbn in H.
    + injection H as H. subst. auto.
    + destruct b as [|v b]; cbn in H, Hj; [lia|]. injection H as H1 H2. exfalso; apply Hb; left; auto.
  - destruct i as [|i]; cbn in H.
    + destruct j as [|j]; cbn in H.
      * injection H as H. subst. auto.
      * destruct b as [|v b]; cbn in H, Hj; [lia|]. injection H as H1 H2. exfalso; apply Hb; left; auto.
    + destruct j as [|j]; cbn in H.
      * injection H as H1 H2. exfalso; apply Ha; left; auto.
      * destruct b as [|v b]; cbn in H, Hi, Hj; [injection H as H1 H2; exfalso; apply Ha; left; auto; lia|].
        injection H as H1 H2. subst v.
        destruct (IH b i j) as [-> ->]; auto; try lia.
        -- intros H; apply Ha; right; exact H.
        -- intros H; apply Hb; right; exact H.
Qed.


Lemma perms_rev_nodup {A} (l : list A) : NoDup l -> NoDup (perms_rev l).
Proof.
  induction l as [|x l IH]; intros Hnd; cbn [perms_rev].
  - repeat constructor. intros [].
  - inversion Hnd as [|? ? Hx Hl]; subst.
    apply (Permutation_NoDup (Permutation_sym (insert_all_perm_flat x (perms_rev l) 0))).
    assert (Hni : forall it, In it (perms_rev l) -> ~ In x it).
    { intros it Hit Hin. apply perms_rev_in in Hit. apply Hx.
      apply (Permutation_in x (Permutation_sym Hit)). exact Hin. }
    apply NoDup_flat_map_intro; [apply IH; exact Hl| |].
    + intros it Hit. apply NoDup_map_inj; [apply seq_NoDup|].
      intros i j Hi Hj H. apply in_seq in Hi, Hj.
      apply insert_at_inj in H; try (apply Hni; exact Hit); try lia.
    + intros a b p Ha Hb Hp Hq. apply in_map_iff in Hp as (i & <- & Hi). apply in_map_iff in Hq as (j & Hq & Hj).
      apply in_seq in Hi, Hj.
      apply insert_at_inj in Hq; try (apply Hni; assumption); try lia. intuition.
Qed.

Lemma perms_rev_length {A} (l : list A) : length (perms_rev l) = fact (length l).
Proof.
  induction l as [|x l IH]; [reflexivity|]. cbn [perms_rev].
  rewrite (Permutation_length (insert_all_perm_flat x (perms_rev l) 0)).
  rewrite (@flat_map_length_const _ _ _ _ (length l + 1)).
  - rewrite IH. cbn [length]. change (fact (S (length l))) with (S (length l) * fact (length l)). lia.
  - intros it Hit. apply perms_rev_in in Hit. rewrite map_length, seq_length, (Permutation_length Hit). reflexivity.
Qed.

(** Alternating parity along a list of permutations. *)
Fixpoint alt (b : bool) (L : list (list nat)) : Prop :=
  match L with [] => True | p :: L' => par p = b /\ alt (negb b) L' end.

Lemma alt_app b L1 L2 : alt b (L1 ++ L2) <-> alt b L1 /\ alt (xorb b (Nat.odd (length L1))) L2.
Proof.
  revert b; induction L1 as [|p L1 IH]; intros b; cbn [app alt length].
  - change (Nat.odd 0) with false. rewrite xorb_false_r. tauto.
  - rewrite IH, Nat.odd_succ, <- Nat.negb_odd.
    replace (xorb (negb b) (Nat.odd (length L1))) with (xorb b (negb (Nat.odd (length L1))))
      by (destruct b, (Nat.odd (length L1)); reflexivity). tauto.
Qed.

Lemma par_insert_max x item j : (forall y, In y item -> y < x) -> j <= length item ->
  par (insert_at j x item) = xorb (Nat.odd (length item - j)) (par item).
Proof.
  intros Hlt Hj. unfold insert_at. cbn [app].
  assert (Hni : ~ In x (skipn j item)).
  { intros H. assert (Hin : In x item) by (rewrite <- (firstn_skipn j item); apply in_or_app; right; exact H).
    specialize (Hlt x Hin). lia. }
  pose proof (@par_move (firstn j item) x (skipn j item) [] Hni) as Hm.
  rewrite app_nil_r in Hm. rewrite Hm, skipn_length. f_equal.
  rewrite app_assoc, firstn_skipn. unfold par. rewrite ninv_app. cbn [ninv below filter length Nat.add].
  assert (Hc : forall l, (forall y, In y l -> y < x) -> cross l [x] = 0).
  { induction l as [|y l IH]; intros Hl; [reflexivity|]. cbn [cross]. rewrite IH by (intros; apply Hl; right; assumption).
    rewrite below_cons. specialize (Hl y (or_introl eq_refl)).
    destruct (Nat.ltb_spec x y); [lia|]. reflexivity. }
  rewrite (Hc item Hlt). f_equal. cbn. lia.
Qed.

Lemma alt_ascending x item k s b : (forall y, In y item -> y < x) -> s + k <= length item + 1 ->
  xorb (Nat.odd (length item - s)) (par item) = b ->
  alt b (map (fun j => insert_at j x item) (seq s k)).
Proof.
  intros Hlt. revert s b; induction k as [|k IH]; intros s b Hk Hb; cbn [seq map alt]; [exact I|].
  split.
  - rewrite par_insert_max; [exact Hb|exact Hlt|lia].
  - destruct k as [|k]; [exact I|]. apply IH; [lia|].
    rewrite <- Hb. replace (length item - s) with (S (length item - S s)) by lia.
    rewrite Nat.odd_succ, <- Nat.negb_odd. destruct (Nat.odd (length item - S s)), (par item); reflexivity.
Qed.

Lemma alt_rev b L : alt b L -> alt (xorb b (negb (Nat.odd (length L)))) (rev L).
Proof.
  revert b; induction L as [|p L IH]; intros b; cbn [alt rev length]; [tauto|].
  intros [Hp HL]. apply alt_app. rewrite rev_length. apply IH in HL. split.
  - rewrite Nat.odd_succ, <- Nat.negb_odd. rewrite negb_involutive.
    replace (xorb b (Nat.odd (length L))) with (xorb (negb b) (negb (Nat.odd (length L))))
      by (destruct b, (Nat.odd (length L)); reflexivity). exact HL.
  - rewrite Nat.odd_succ, <- Nat.negb_odd. cbn. split; [|exact I].
    destruct b, (Nat.odd (length L)); cbn; exact Hp.
Qed.

Lemma alt_insert_all n x items i :
  (forall it, In it items -> length it = n /\ forall y, In y it -> y < x) ->
  alt (Nat.odd i) items -> alt (Nat.odd (i * (n + 1))) (insert_all i x items).
Proof.
  revert i; induction items as [|it items IH]; intros i Hit Halt; cbn [insert_all]; [exact I|].
  cbn [alt] in Halt. destruct Halt as [Hp Halt].
  destruct (Hit it (or_introl eq_refl)) as [Hlen Hlt].
  apply alt_app. split.
  - destruct (Nat.odd i) eqn:Ei.
    + apply alt_ascending; [exact Hlt|lia|].
      rewrite Nat.odd_mul, Ei, Hp, Hlen, Nat.sub_0_r, Nat.add_1_r, Nat.odd_succ, <- Nat.negb_odd.
      cbn. destruct (Nat.odd n); reflexivity.
    + rewrite map_rev.
      assert (H0 : alt (Nat.odd n) (map (fun j => insert_at j x it) (seq 0 (length it + 1)))).
      { apply alt_ascending; [exact Hlt|lia|].
        rewrite Hp, Hlen, Nat.sub_0_r. destruct (Nat.odd n); reflexivity. }
      apply alt_rev in H0. rewrite map_length, seq_length, Hlen in H0.
      rewrite Nat.odd_mul, Ei. cbn [andb].
      replace false with (xorb (Nat.odd n) (negb (Nat.odd (n + 1)))); [rewrite Hlen; exact H0|].
      rewrite Nat.add_1_r, Nat.odd_succ, <- Nat.negb_odd. destruct (Nat.odd n); reflexivity.
  - rewrite map_length.
    assert (HL : length (if Nat.odd i then seq 0 (length it + 1) else rev (seq 0 (length it + 1))) = n + 1).
    { destruct (Nat.odd i); rewrite ?rev_length, seq_length, Hlen; reflexivity. }
    rewrite HL.
    replace (xorb (Nat.odd (i * (n + 1))) (Nat.odd (n + 1))) with (Nat.odd (S i * (n + 1)))
      by (cbn [Nat.mul]; rewrite Nat.odd_add; apply xorb_comm).
    apply IH.
    + intros it' H'. apply Hit. right; exact H'.
    + rewrite Nat.odd_succ, <- Nat.negb_odd. exact Halt.
Qed.

Lemma alt_perms n : alt false (perms_rev (rev (seq 0 n))).
Proof.
  induction n as [|n IH].
  - cbn. auto.
  - rewrite seq_S, rev_app_distr. cbn [rev app perms_rev Nat.add].
    apply (@alt_insert_all n n (perms_rev (rev (seq 0 n))) 0); [|exact IH].
    intros it Hit. apply perms_rev_in in Hit. split.
    + rewrite <- (Permutation_length Hit), rev_length, seq_length. reflexivity.
    + intros y Hy. apply (Permutation_in y (Permutation_sym Hit)) in Hy.
      apply in_rev, in_seq in Hy. lia.
Qed.

Lemma attach_signs_alt L i p s : alt (Nat.odd i) L -> In (p, s) (attach_signs i L) ->
  s = (if par p then -1 else 1)%Z.
Proof.
  revert i; induction L as [|q L IH]; intros i Halt Hin; cbn [attach_signs] in Hin; [destruct Hin|].
  cbn [alt] in Halt. destruct Halt as [Hq Halt]. destruct Hin as [H|Hin].
  - injection H as <- <-. rewrite Hq. reflexivity.
  - apply (IH (S i)); [|exact Hin]. rewrite Nat.odd_succ, <- Nat.negb_odd. exact Halt.
Qed.

Lemma pws_sign_seq n p s : In (p, s) (permutations_with_signs (seq 0 n)) -> s = (if par p then -1 else 1)%Z.
Proof. unfold permutations_with_signs. apply attach_signs_alt. apply alt_perms. Qed.

Lemma par_seq s n : par (seq s n) = false.
Proof.
  revert s; induction n as [|n IH]; intros s; [reflexivity|]. unfold par in *. cbn [seq ninv].
  assert (H : below s (seq (S s) n) = 0).
  { unfold below. clear IH. assert (Hg : forall m k, s < k -> filter (fun y => y <? s) (seq k m) = []).
    { induction m as [|m IHm]; intros k Hk; cbn [seq filter]; [reflexivity|].
      destruct (Nat.ltb_spec k s); [lia|]. apply IHm. lia. }
    rewrite Hg by lia. reflexivity. }
  rewrite H. apply IH.
Qed.

(** Signs count exchanges, for a sequence of distinct items of any type. *)
Lemma pws_sign_swaps {A} (l p : list A) s k : NoDup l ->
  In (p, s) (permutations_with_signs l) -> swaps k l p -> s = minus_one_pow k.
Proof.
  intros Hnd Hin Hsw.
  destruct l as [|d l0] eqn:El.
  - cbn in Hin. destruct Hin as [H|[]]. injection H as <- <-.
    assert (Hk : forall k (a b : list A), swaps k a b -> a = [] -> k = 0).
    { clear. intros k a b H. induction H as [|k l l1 x m y l2 Hsw IH]; intros Ha; [reflexivity|].
      exfalso. subst. apply swaps_perm, Permutation_nil in Hsw. destruct l1; discriminate. }
    rewrite (Hk _ _ _ Hsw eq_refl). reflexivity.
  - rewrite <- El in *. set (n := length l).
    set (f := fun i => nth i l d).
    assert (Hl : l = map f (seq 0 n)) by (symmetry; apply map_nth_seq).
    assert (Hinj : forall q1 q2, Permutation (seq 0 n) q1 -> Permutation (seq 0 n) q2 ->
               map f q1 = map f q2 -> q1 = q2).
    { intros q1 q2 H1 H2. assert (Hb1 : forall y, In y q1 -> y < n).
      { intros y Hy. apply (Permutation_in y (Permutation_sym H1)), in_seq in Hy. lia. }
      assert (Hb2 : forall y, In y q2 -> y < n).
      { intros y Hy. apply (Permutation_in y (Permutation_sym H2)), in_seq in Hy. lia. }
      clear H1 H2. revert q2 Hb2; induction q1 as [|a q1 IH]; intros [|b q2] Hb2 Hm; try discriminate; [reflexivity|].
      cbn in Hm. injection Hm as Hab Hm. f_equal.
      - unfold f in Hab. apply (proj1 (NoDup_nth l d) Hnd); [apply Hb1; left; reflexivity|apply Hb2; left; reflexivity|exact Hab].
      - apply IH; [intros; apply Hb1; right; assumption|intros; apply Hb2; right; assumption|exact Hm]. }
    rewrite Hl in Hin, Hsw. rewrite pws_map in Hin.
    apply in_map_iff in Hin as ((q & s') & Hq & Hin). cbn [fst snd] in Hq. injection Hq as Hq Hs'. subst s'.
    apply swaps_unmap in Hsw as (q' & Hq' & Hsw).
    assert (q = q').
    { apply Hinj; [| |congruence].
      - apply in_map with (f := fst) in Hin. unfold permutations_with_signs in Hin. rewrite attach_signs_fst in Hin.
        cbn in Hin. apply perms_rev_in in Hin. rewrite <- Hin. apply Permutation_rev.
      - apply swaps_perm in Hsw. exact Hsw. }
    subst q'. rewrite (pws_sign_seq n q s Hin).
    rewrite (swaps_par (seq_NoDup n 0) Hsw), par_seq, xorb_false_r.
    unfold minus_one_pow. rewrite <- Nat.negb_odd. destruct (Nat.odd k); reflexivity.
Qed.

Lemma pws_in_fst {A} (l p : list A) : In p (map fst (permutations_with_signs l)) <-> Permutation l p.
Proof.
  unfold permutations_with_signs. rewrite attach_signs_fst, perms_rev_in.
  split; intros H; [rewrite <- H; apply Permutation_rev|rewrite <- H; symmetry; apply Permutation_rev].
Qed.

Lemma pws_length {A} (l : list A) : length (permutations_with_signs l) = fact (length l).
Proof.
  rewrite <- (map_length fst). unfold permutations_with_signs. rewrite attach_signs_fst, perms_rev_length, rev_length.
  reflexivity.
Qed.

Lemma pws_nodup {A} (l : list A) : NoDup l -> NoDup (map fst (permutations_with_signs l)).
Proof.
  intros H. unfold permutations_with_signs. rewrite attach_signs_fst. apply perms_rev_nodup.
  apply NoDup_rev. exact H.
Qed.

Lemma factorial_fact n : factorial n = fact n.
Proof. induction n as [|n IH]; [reflexivity|]. destruct n as [|n]; [reflexivity|]. cbn [factorial] in *. rewrite IH. reflexivity. Qed.
