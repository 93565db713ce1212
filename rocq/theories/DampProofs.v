(** Refinement of the DIIS dictionaries and cached norms to textbook DIIS. *)
From Verif Require Import Base ListAux Alg DampModel DampSpec.
Set Implicit Arguments.
Local Open Scope nat_scope.
Local Open Scope list_scope.

Lemma Ok_pair A B (a a' : A) (b b' : B) : Ok (a, b) = Ok (a', b') -> a = a' /\ b = b'.
Proof. intros H. injection H. auto. Qed.
Lemma Ok_inj' A (a b : A) : Ok a = Ok b -> a = b.
Proof. intros H. injection H. auto. Qed.

(** * Dictionaries *)
Section DictLemmas.
  Variables (I V : Type) (eqd : forall x y : I, {x = y} + {x <> y}).
  Lemma dget_dset k k' v (d : dict I V) : dget eqd k (dset eqd k' v d) = if eqd k k' then Some v else dget eqd k d.
  Proof.
    induction d as [|[k1 v1] d IH]; cbn.
    - destruct (eqd k k'); reflexivity.
    - destruct (eqd k' k1) as [->|N]; cbn.
      + destruct (eqd k k1); reflexivity.
      + destruct (eqd k k1) as [->|N'].
        * destruct (eqd k1 k') as [E|_]; [congruence|reflexivity].
        * exact IH.
  Qed.
  Lemma dset_notin k v (d : dict I V) : ~ In k (map fst d) -> dset eqd k v d = d ++ [(k, v)].
  Proof.
    induction d as [|[k1 v1] d IH]; intros H; [reflexivity|]. cbn in *. destruct (eqd k k1) as [->|N]; [tauto|]. f_equal. apply IH. tauto.
  Qed.
  Lemma dset_app_notin k v (d d' : dict I V) : ~ In k (map fst d) -> dset eqd k v (d ++ d') = d ++ dset eqd k v d'.
  Proof.
    induction d as [|[k1 v1] d IH]; intros H; [reflexivity|]. cbn in *. destruct (eqd k k1) as [->|N]; [tauto|]. f_equal. apply IH. tauto.
  Qed.
  Lemma dget_in k (d : dict I V) v : dget eqd k d = Some v -> In (k, v) d.
  Proof. induction d as [|[k1 v1] d IH]; cbn; [discriminate|]. destruct (eqd k k1); [intros [= ->]; left; congruence|right; auto]. Qed.
  Lemma dget_nodup (d : dict I V) k v : NoDup (map fst d) -> In (k, v) d -> dget eqd k d = Some v.
  Proof.
    induction d as [|[k1 v1] d IH]; cbn; [tauto|]. intros HN HI. inversion HN as [|? ? N1 N2]; subst. destruct HI as [[= -> ->]|HI].
    - destruct (eqd k k); congruence.
    - destruct (eqd k k1) as [->|]; [|auto]. exfalso. apply N1. apply in_map_iff. exists (k1, v). auto.
  Qed.
  Lemma dget_notin (d : dict I V) k : ~ In k (map fst d) -> dget eqd k d = None.
  Proof. induction d as [|[k1 v1] d IH]; cbn; intros H; [reflexivity|]. destruct (eqd k k1) as [->|]; [tauto|]. apply IH. tauto. Qed.
  (** Deleting the key at position [n]. *)
  Lemma ddel_nth (A : Type) (l : list A) (f : A -> I) (g : A -> V) n a : NoDup (map f l) -> nth_error l n = Some a ->
    ddel eqd (f a) (map (fun x => (f x, g x)) l) = map (fun x => (f x, g x)) (remove_nth n l).
  Proof.
    revert n. induction l as [|x l IH]; intros n HN Hn; [destruct n; discriminate|]. cbn in HN. inversion HN as [|? ? N1 N2]; subst.
    destruct n as [|n]; cbn in Hn.
    - injection Hn as ->. cbn. destruct (eqd (f a) (f a)); congruence.
    - cbn. destruct (eqd (f a) (f x)) as [E|].
      + exfalso. apply N1. rewrite <- E. apply in_map. eapply nth_error_In; eauto.
      + f_equal. apply IH; assumption.
  Qed.
  Lemma ddel_app_notin (d d' : dict I V) k : ~ In k (map fst d) -> ddel eqd k (d ++ d') = d ++ ddel eqd k d'.
  Proof.
    induction d as [|[k1 v1] d IH]; intros H; [reflexivity|]. cbn in *. destruct (eqd k k1) as [->|N]; [tauto|]. f_equal. apply IH. tauto.
  Qed.
End DictLemmas.

Lemma remove_nth_map A B (f : A -> B) n l : map f (remove_nth n l) = remove_nth n (map f l).
Proof. unfold remove_nth. rewrite map_app, firstn_map, skipn_map. reflexivity. Qed.
Lemma remove_nth_in A (x : A) n l : In x (remove_nth n l) -> In x l.
Proof.
  unfold remove_nth. rewrite in_app_iff. intros [H|H].
  - rewrite <- (firstn_skipn n l). apply in_or_app. left; exact H.
  - rewrite <- (firstn_skipn (S n) l). apply in_or_app. right; exact H.
Qed.
Lemma remove_nth_NoDup A n (l : list A) : NoDup l -> NoDup (remove_nth n l).
Proof.
  revert n. induction l as [|x l IH]; intros n H; [destruct n; constructor|]. inversion H as [|? ? N1 N2]; subst.
  destruct n as [|n]; cbn; [exact N2|]. change (NoDup (x :: remove_nth n l)). constructor; [|apply IH; exact N2].
  intros X. apply N1. eapply remove_nth_in; eauto.
Qed.
Lemma remove_nth_length A n (l : list A) : n < length l -> S (length (remove_nth n l)) = length l.
Proof. intros H. unfold remove_nth. rewrite app_length, firstn_length, skipn_length. lia. Qed.

(** * Sorting already sorted keys *)
Fixpoint increasing (lo : Z) (l : list Z) : Prop := match l with [] => True | x :: l' => (lo < x)%Z /\ increasing x l' end.
Lemma increasing_weaken lo lo' l : (lo' <= lo)%Z -> increasing lo l -> increasing lo' l.
Proof. destruct l; cbn; [trivial|]. intuition lia. Qed.
Lemma increasing_in lo l x : increasing lo l -> In x l -> (lo < x)%Z.
Proof.
  revert lo. induction l as [|y l IH]; cbn; [tauto|]. intros lo [H1 H2] [->|H3]; [exact H1|]. specialize (IH _ H2 H3). lia.
Qed.
Lemma increasing_NoDup lo l : increasing lo l -> NoDup l.
Proof.
  revert lo. induction l as [|y l IH]; intros lo H; [constructor|]. destruct H as [H1 H2]. constructor; [|eauto].
  intros X. apply (@increasing_in _ _ _ H2) in X. lia.
Qed.
Lemma increasing_sort lo l : increasing lo l -> zsort l = l.
Proof.
  revert lo. induction l as [|x l IH]; intros lo H; [reflexivity|]. destruct H as [H1 H2]. cbn. change (fold_right zinsert [] l) with (zsort l).
  rewrite (IH _ H2). destruct l as [|y l]; [reflexivity|]. cbn. destruct H2 as [H2 _]. destruct (Z.leb_spec x y); [reflexivity|lia].
Qed.
Lemma increasing_snoc lo l x : increasing lo l -> (lo < x)%Z -> (forall y, In y l -> (y < x)%Z) -> increasing lo (l ++ [x]).
Proof.
  revert lo. induction l as [|y l IH]; intros lo H Hx Hl; cbn; [auto|]. destruct H as [H1 H2]. split; [exact H1|]. apply IH; auto.
  - apply Hl; left; reflexivity.
  - intros z Hz. apply Hl. right; exact Hz.
Qed.
Lemma increasing_remove lo n l : increasing lo l -> increasing lo (remove_nth n l).
Proof.
  revert lo n. induction l as [|x l IH]; intros lo n H; [destruct n; exact I|]. destruct H as [H1 H2]. destruct n as [|n].
  - cbn. eapply increasing_weaken; [|exact H2]. lia.
  - change (increasing lo (x :: remove_nth n l)). split; [exact H1|]. apply IH, H2.
Qed.

Section Refine.
  Variable K : rng.
  Add Ring Kring : (rth K).
  Variable gtb : K -> K -> bool.
  Variable nonzero : K -> bool.
  Variable lin_solve : list (list K) -> list K -> result (list K).
  Variables (space min_space : nat) (factor : K).
  Local Notation vec := (vec K).
  Local Notation diis := (diis K).

  Lemma zipw_comm (a b : vec) : zipw rmul a b = zipw rmul b a.
  Proof. revert b. induction a as [|x a IH]; destruct b as [|y b]; cbn; try reflexivity. f_equal; [ring|apply IH]. Qed.
  Lemma vdot_comm (a b : vec) : vdot a b = vdot b a.
  Proof. unfold vdot. rewrite zipw_comm. reflexivity. Qed.

  (** Cached norms agree with the stored errors and have keys below [n]. *)
  Definition sound (errs : dict Z vec) (n : Z) (c : dict (Z * Z) K) : Prop :=
    forall i j x, dget pair_eq_dec (i, j) c = Some x ->
      ((i < n)%Z /\ (j < n)%Z) /\ forall ei ej, dget Z.eq_dec i errs = Some ei -> dget Z.eq_dec j errs = Some ej -> x = vdot ei ej.

  Lemma error_norm_ok errs n c i j ei ej : sound errs n c -> dget Z.eq_dec i errs = Some ei -> dget Z.eq_dec j errs = Some ej ->
    (i < n)%Z -> (j < n)%Z -> exists c', error_norm errs c i j = Ok (vdot ei ej, c') /\ sound errs n c'.
  Proof.
    intros HS Hi Hj Hin Hjn. unfold error_norm. destruct (dget pair_eq_dec (i, j) c) as [x|] eqn:E.
    - exists c. apply HS in E as [_ E]. rewrite (E _ _ Hi Hj). auto.
    - rewrite Hi, Hj. eexists. split; [reflexivity|]. intros i' j' x. rewrite !dget_dset.
      destruct (pair_eq_dec (i', j') (j, i)) as [[= -> ->]|_].
      + intros [= <-]. split; [auto|]. intros e1 e2 H1 H2. rewrite vdot_comm. congruence.
      + destruct (pair_eq_dec (i', j') (i, j)) as [[= -> ->]|_].
        * intros [= <-]. split; [auto|]. intros e1 e2 H1 H2. congruence.
        * apply HS.
  Qed.

  (** Entries: key, vector, error. *)
  Local Notation ent := (Z * (vec * vec))%type.
  Definition nrm (p : ent * ent) : K := vdot (snd (snd (fst p))) (snd (snd (snd p))).
  Definition key2 (p : ent * ent) : Z * Z := (fst (fst p), fst (snd p)).
  Lemma norm_list_ok errs n (T : list ent) : (forall t, In t T -> dget Z.eq_dec (fst t) errs = Some (snd (snd t)) /\ (fst t < n)%Z) ->
    forall ps c, sound errs n c -> (forall p, In p ps -> In (fst p) T /\ In (snd p) T) ->
    exists c', norm_list errs c (map key2 ps) = Ok (map nrm ps, c') /\ sound errs n c'.
  Proof.
    intros HT. induction ps as [|p ps IH]; intros c HS Hp; cbn; [eauto|].
    destruct (Hp p (or_introl eq_refl)) as [H1 H2]. apply HT in H1 as [H1 H1']. apply HT in H2 as [H2 H2'].
    destruct (@error_norm_ok _ _ _ _ _ _ _ HS H1 H2 H1' H2') as (c1 & -> & HS1).
    destruct (IH c1 HS1) as (c2 & -> & HS2); [intros q Hq; apply Hp; right; exact Hq|]. eauto.
  Qed.
  Lemma norm_rows_ok errs n (T : list ent) : (forall t, In t T -> dget Z.eq_dec (fst t) errs = Some (snd (snd t)) /\ (fst t < n)%Z) ->
    forall T1 c, sound errs n c -> (forall t, In t T1 -> In t T) ->
    exists c', norm_rows errs c (map fst T1) (map fst T) = Ok (map (fun t => map (fun u => vdot (snd (snd t)) (snd (snd u))) T) T1, c') /\ sound errs n c'.
  Proof.
    intros HT. induction T1 as [|t T1 IH]; intros c HS HI; cbn; [eauto|].
    destruct (@norm_list_ok errs n T HT (map (pair t) T) c HS) as (c1 & E & HS1).
    { intros p Hp. apply in_map_iff in Hp as (u & <- & Hu). split; [apply HI; left; reflexivity|exact Hu]. }
    rewrite map_map in E. cbn in E. rewrite map_map. unfold key2 in E. cbn in E. rewrite E. destruct (IH c1 HS1) as (c2 & -> & HS2); [intros u Hu; apply HI; right; exact Hu|].
    exists c2. split; [|exact HS2]. rewrite map_map. reflexivity.
  Qed.

  (** The state of the object and the textbook state. *)
  Definition arr_of (T : list ent) : dict Z vec := map (fun t => (fst t, fst (snd t))) T.
  Definition err_of (T : list ent) : dict Z vec := map (fun t => (fst t, snd (snd t))) T.
  Definition extra (n : Z) (x : option (vec * vec)) : list ent := match x with Some p => [(n, p)] | None => [] end.
  Inductive rel : diis -> book K -> Prop :=
  | rel_empty : rel (diis_init K) (mkb None [])
  | rel_run : forall T x n c p, increasing (-1) (map fst T) -> (forall k, In k (map fst T) -> (k < n)%Z) -> (-1 < n)%Z ->
      sound (err_of T) n c ->
      rel (mkd (((-1)%Z, p) :: arr_of (T ++ extra n x)) (err_of (T ++ extra n x)) n c) (mkb (Some p) (map snd T)).

  Lemma keys_arr T : map fst (arr_of T) = map fst T.
  Proof. unfold arr_of. rewrite map_map. reflexivity. Qed.
  Lemma keys_err T : map fst (err_of T) = map fst T.
  Proof. unfold err_of. rewrite map_map. reflexivity. Qed.

  Lemma set_arr T n x a e : ~ In n (map fst T) -> dset Z.eq_dec n a (arr_of (T ++ extra n x)) = arr_of (T ++ [(n, (a, e))]).
  Proof.
    intros H. unfold arr_of. rewrite !map_app. rewrite dset_app_notin by (rewrite keys_arr; exact H). f_equal.
    destruct x as [p|]; cbn; [|reflexivity]. destruct (Z.eq_dec n n); [reflexivity|congruence].
  Qed.
  Lemma set_err T n x a e : ~ In n (map fst T) -> dset Z.eq_dec n e (err_of (T ++ extra n x)) = err_of (T ++ [(n, (a, e))]).
  Proof.
    intros H. unfold err_of. rewrite !map_app. rewrite dset_app_notin by (rewrite keys_err; exact H). f_equal.
    destruct x as [p|]; cbn; [|reflexivity]. destruct (Z.eq_dec n n); [reflexivity|congruence].
  Qed.

  Lemma worst_key (T : list ent) : forall t0 b i T0, (forall j, nth_error T j = nth_error T0 (i + j)) -> nth_error T0 b = Some t0 ->
    exists t, nth_error T0 (worst gtb b i (sqnorm (snd t0)) (map snd T)) = Some t /\
      max_key K gtb (fst t0) (sqnorm (snd t0)) (combine (map fst T) (map (fun t => sqnorm (snd t)) T)) = fst t.
  Proof.
    induction T as [|u T IH]; intros t0 b i T0 H0 Hb; cbn; [eauto|].
    assert (Hu : nth_error T0 i = Some u) by (rewrite <- (Nat.add_0_r i), <- H0; reflexivity).
    assert (HT : forall j, nth_error T j = nth_error T0 (S i + j)) by (intros j; specialize (H0 (S j)); cbn in H0; rewrite H0; f_equal; lia).
    destruct (gtb (sqnorm (snd u)) (sqnorm (snd t0))); apply IH; assumption.
  Qed.

  Lemma sound_store (T : list ent) n c (a e : vec) : sound (err_of T) n c -> (forall k, In k (map fst T) -> (k < n)%Z) ->
    sound (err_of (T ++ [(n, (a, e))])) (n + 1) c.
  Proof.
    intros HS HT i j x Hx. destruct (HS _ _ _ Hx) as [[Hi Hj] HE]. split; [lia|]. intros ei ej H1 H2.
    unfold err_of in H1, H2. rewrite map_app in H1, H2. cbn [map] in H1, H2.
    assert (G : forall k v, (k < n)%Z -> dget Z.eq_dec k (map (fun t : ent => (fst t, snd (snd t))) T ++ [(fst (n, (a, e)), snd (snd (n, (a, e))))]) = Some v ->
                dget Z.eq_dec k (err_of T) = Some v).
    { intros k v Hk. clear - Hk. induction T as [|t T IH]; cbn.
      - destruct (Z.eq_dec k n); [lia|discriminate].
      - destruct (Z.eq_dec k (fst t)); auto. }
    apply HE; apply G; assumption.
  Qed.
  Lemma sound_sub (T T' : list ent) n c : NoDup (map fst T) -> (forall t, In t T' -> In t T) -> sound (err_of T) n c -> sound (err_of T') n c.
  Proof.
    intros HN HI HS i j x Hx. destruct (HS _ _ _ Hx) as [HB HE]. split; [exact HB|]. intros ei ej H1 H2.
    assert (G : forall k v, dget Z.eq_dec k (err_of T') = Some v -> dget Z.eq_dec k (err_of T) = Some v).
    { intros k v H. apply dget_in in H. apply dget_nodup; [rewrite keys_err; exact HN|]. unfold err_of in *. apply in_map_iff in H as (t & E & Ht).
      rewrite <- E. apply in_map with (f := fun t : ent => (fst t, snd (snd t))). auto. }
    apply HE; apply G; assumption.
  Qed.

  Lemma lookup_err (T : list ent) n : increasing (-1) (map fst T) -> (forall k, In k (map fst T) -> (k < n)%Z) ->
    forall t, In t T -> dget Z.eq_dec (fst t) (err_of T) = Some (snd (snd t)) /\ (fst t < n)%Z.
  Proof.
    intros HI HB t Ht. split; [|apply HB, in_map, Ht]. apply dget_nodup; [rewrite keys_err; eapply increasing_NoDup; eauto|].
    unfold err_of. apply in_map_iff. exists t. auto.
  Qed.
  Lemma lookup_arr (T : list ent) p : increasing (-1) (map fst T) ->
    forall t, In t T -> dget Z.eq_dec (fst t) (((-1)%Z, p) :: arr_of T) = Some (fst (snd t)).
  Proof.
    intros HI t Ht. cbn. destruct (Z.eq_dec (fst t) (-1)) as [E|_].
    - exfalso. pose proof (@increasing_in (-1) _ (fst t) HI (in_map fst _ _ Ht)). lia.
    - apply dget_nodup; [rewrite keys_arr; eapply increasing_NoDup; eauto|]. unfold arr_of. apply in_map_iff. exists t. auto.
  Qed.

  (** Storing a pair. *)
  Lemma store_ok T x n c p a e : increasing (-1) (map fst T) -> (forall k, In k (map fst T) -> (k < n)%Z) -> (-1 < n)%Z ->
    sound (err_of T) n c ->
    exists T' c', store gtb space (mkd (((-1)%Z, p) :: arr_of (T ++ extra n x)) (err_of (T ++ extra n x)) n c) a e =
        Ok (mkd (((-1)%Z, p) :: arr_of T') (err_of T') (n + 1) c') /\
      map snd T' = keep gtb space (map snd T) (a, e) /\
      increasing (-1) (map fst T') /\ (forall k, In k (map fst T') -> (k < n + 1)%Z) /\ sound (err_of T') (n + 1) c'.
  Proof.
    intros HI HB Hn HS. assert (HN : ~ In n (map fst T)) by (intros X; apply HB in X; lia).
    unfold store. cbn [arrays errors counter cache].
    replace (dset Z.eq_dec n a (((-1)%Z, p) :: arr_of (T ++ extra n x))) with (((-1)%Z, p) :: arr_of (T ++ [(n, (a, e))])).
    2:{ cbn [dset]. destruct (Z.eq_dec n (-1)); [lia|]. rewrite (@set_arr T n x a e HN). reflexivity. }
    rewrite (@set_err T n x a e HN). set (T1 := T ++ [(n, (a, e))]).
    assert (HI1 : increasing (-1) (map fst T1)).
    { unfold T1. rewrite map_app. apply increasing_snoc; auto. }
    assert (HB1 : forall k, In k (map fst T1) -> (k < n + 1)%Z).
    { unfold T1. intros k. rewrite map_app, in_app_iff. cbn. intros [H|[<-|[]]]; [apply HB in H|]; lia. }
    assert (HS1 : sound (err_of T1) (n + 1) c) by (apply sound_store; assumption).
    assert (HL : length (((-1)%Z, p) :: arr_of T1) = S (length (map snd T ++ [(a, e)]))).
    { unfold T1, arr_of. cbn. rewrite map_length, !app_length, map_length. reflexivity. }
    assert (HK : map snd T1 = map snd T ++ [(a, e)]) by (unfold T1; rewrite map_app; reflexivity).
    unfold keep. cbv zeta. rewrite HL, <- HK. destruct (space <? S (length (map snd T1))) eqn:ES.
    2:{ exists T1, c. auto. }
    destruct T1 as [|t0 T2] eqn:ET; [exfalso; unfold T1 in ET; destruct T; discriminate|].
    destruct (@norm_list_ok (err_of (t0 :: T2)) (n + 1) (t0 :: T2) (@lookup_err _ _ HI1 HB1) (map (fun t => (t, t)) (t0 :: T2)) c HS1) as (c1 & E1 & HS2).
    { intros q Hq. apply in_map_iff in Hq as (t & <- & Ht). auto. }
    assert (E2 : map key2 (map (fun t => (t, t)) (t0 :: T2)) = map (fun k => (k, k)) (dkeys (err_of (t0 :: T2)))).
    { unfold dkeys. rewrite keys_err, !map_map. reflexivity. }
    rewrite <- E2, E1. unfold dkeys. rewrite keys_err. cbn [map combine].
    assert (E3 : map nrm (map (fun t : ent => (t, t)) T2) = map (fun t => sqnorm (snd t)) T2) by (rewrite map_map; reflexivity).
    rewrite E3. change (nrm (t0, t0)) with (sqnorm (snd t0)).
    destruct (@worst_key T2 t0 0 1 (t0 :: T2)) as (t & Ht & ->); [intros j; reflexivity|reflexivity|].
    assert (Hin : In t (t0 :: T2)) by (eapply nth_error_In; eauto).
    unfold dmem. rewrite (@lookup_arr _ p HI1 t Hin), (proj1 (@lookup_err _ _ HI1 HB1 t Hin)). cbn [andb].
    assert (HND : NoDup (map fst (t0 :: T2))) by (eapply increasing_NoDup; eauto).
    set (w := worst gtb 0 1 (sqnorm (snd t0)) (map snd T2)) in *.
    exists (remove_nth w (t0 :: T2)), c1. split; [|split; [|split; [|split]]].
    - f_equal. f_equal.
      + cbn [ddel]. destruct (Z.eq_dec (fst t) (-1)) as [E|_].
        * exfalso. pose proof (@increasing_in (-1) _ (fst t) HI1 (in_map fst _ _ Hin)). lia.
        * f_equal. unfold arr_of. apply (@ddel_nth _ _ Z.eq_dec _ _ fst (fun t : ent => fst (snd t))); assumption.
      + unfold err_of. apply (@ddel_nth _ _ Z.eq_dec _ _ fst (fun t : ent => snd (snd t))); assumption.
    - rewrite remove_nth_map. reflexivity.
    - rewrite remove_nth_map. apply increasing_remove, HI1.
    - intros k Hk. apply HB1. rewrite remove_nth_map in Hk. eapply remove_nth_in; eauto.
    - apply (@sound_sub (t0 :: T2)); [exact HND|intros u Hu; eapply remove_nth_in; eauto|exact HS2].
  Qed.

  Lemma accumulate_ok (d : dict Z vec) (f : ent -> vec) (T : list ent) : (forall t, In t T -> dget Z.eq_dec (fst t) d = Some (f t)) ->
    forall acc cs, accumulate d acc (combine (map fst T) cs) = Ok (weighted acc (map f T) cs).
  Proof.
    induction T as [|t T IH]; intros H acc cs; [reflexivity|]. cbn. destruct cs as [|c cs]; [reflexivity|].
    cbn. rewrite (H t (or_introl eq_refl)). apply IH. intros u Hu. apply H. right; exact Hu.
  Qed.

  (** Extrapolation right after a push. *)
  Lemma extrapolate_ok T n c p : increasing (-1) (map fst T) -> (forall k, In k (map fst T) -> (k < n)%Z) -> (-1 < n)%Z ->
    sound (err_of T) n c ->
    let s := mkd (((-1)%Z, p) :: arr_of T) (err_of T) n c in
    let size := length (map snd T) in
    match diis_extrapolate nonzero lin_solve min_space factor s with
    | Err e => Err e = (if size <? min_space then Ok p else if size =? 0 then Err ValueError else
                        match lin_solve (border K (gram (map snd T)) size) (residual K size) with Err e => Err e | Ok _ => Ok p end)
    | Ok (s', v) =>
        (size <? min_space = true /\ v = p /\ rel s' (mkb (Some p) (map snd T))) \/
        (size <? min_space = false /\ size =? 0 = false /\ exists c, lin_solve (border K (gram (map snd T)) size) (residual K size) = Ok c /\
          v = (let y := weighted (vzero p) (map fst (map snd T)) c in
               if nonzero factor then vadd (vscale (rsub r1 factor) y) (vscale factor p) else y) /\
          rel s' (mkb (Some v) (map snd T)))
    end.
  Proof.
    intros HI HB Hn HS s size. unfold diis_extrapolate. subst s. cbn [arrays errors counter cache].
    unfold dkeys. rewrite keys_err, (@increasing_sort _ _ HI). rewrite map_length. replace (length T) with size by (unfold size; rewrite map_length; reflexivity).
    destruct (size <? min_space) eqn:E1.
    - replace (dget Z.eq_dec (-1)%Z (((-1)%Z, p) :: arr_of T)) with (Some p) by reflexivity. left. repeat split.
      replace (arr_of T) with (arr_of (T ++ extra n None)) by (cbn; rewrite app_nil_r; reflexivity).
      replace (err_of T) with (err_of (T ++ extra n None)) by (cbn; rewrite app_nil_r; reflexivity). constructor; assumption.
    - destruct (size =? 0) eqn:E2; [reflexivity|].
      destruct (@norm_rows_ok (err_of T) n T (@lookup_err _ _ HI HB) T c HS) as (c1 & EN & HS1); [auto|]. rewrite EN.
      replace (map (fun t => map (fun u : ent => vdot (snd (snd t)) (snd (snd u))) T) T) with (gram (map snd T)).
      2:{ unfold gram. rewrite map_map. apply map_ext. intros t. rewrite map_map. reflexivity. }
      destruct (lin_solve _ _) as [cs|er] eqn:EL; [|reflexivity].
      rewrite (@accumulate_ok _ (fun t => fst (snd t)) T (@lookup_arr _ p HI)).
      rewrite (@accumulate_ok _ (fun t => snd (snd t)) T); [|intros t Ht; apply (@lookup_err _ _ HI HB t Ht)].
      replace (dget Z.eq_dec (-1)%Z (((-1)%Z, p) :: arr_of T)) with (Some p) by reflexivity.
      right. split; [reflexivity|]. split; [reflexivity|]. exists cs. split; [reflexivity|]. split.
      + cbn [first_value]. rewrite map_map. reflexivity.
      + set (y := if nonzero factor then _ else _). set (e := weighted _ _ cs).
        assert (HN : ~ In n (map fst T)) by (intros X; apply HB in X; lia).
        replace (dset Z.eq_dec n y (dset Z.eq_dec (-1)%Z y (((-1)%Z, p) :: arr_of T))) with (((-1)%Z, y) :: arr_of (T ++ extra n (Some (y, e)))).
        2:{ cbn [dset]. destruct (Z.eq_dec (-1) (-1)); [|congruence]. cbn [dset]. destruct (Z.eq_dec n (-1)); [lia|]. f_equal.
            pose proof (@set_arr T n None y e HN) as X. cbn [extra] in X. rewrite app_nil_r in X. rewrite X. reflexivity. }
        replace (dset Z.eq_dec n e (err_of T)) with (err_of (T ++ extra n (Some (y, e)))).
        2:{ pose proof (@set_err T n None y e HN) as X. cbn [extra] in X. rewrite app_nil_r in X. rewrite X. reflexivity. }
        constructor; assumption.
  Qed.

  Local Notation call := (diis_call gtb nonzero lin_solve space min_space factor).
  Local Notation bcall := (book_call gtb nonzero lin_solve space min_space factor).

  Lemma call_refines s b a e : rel s b ->
    match call s a e, bcall b a e with
    | Ok (s', v), Ok (b', v') => v = v' /\ rel s' b'
    | Err x, Err x' => x = x'
    | _, _ => False
    end.
  Proof.
    assert (G : forall T n c p, increasing (-1) (map fst T) -> (forall k, In k (map fst T) -> (k < n)%Z) -> (-1 < n)%Z -> sound (err_of T) n c ->
      match diis_extrapolate nonzero lin_solve min_space factor (mkd (((-1)%Z, p) :: arr_of T) (err_of T) n c),
        (let size := length (map snd T) in
        if size <? min_space then Ok (mkb (Some p) (map snd T), p)
        else if size =? 0 then Err ValueError
        else match lin_solve (border K (gram (map snd T)) size) (residual K size) with
             | Err e => Err e
             | Ok c => let y := weighted (vzero p) (map fst (map snd T)) c in
                       let y := if nonzero factor then vadd (vscale (rsub r1 factor) y) (vscale factor p) else y in
                       Ok (mkb (Some y) (map snd T), y)
             end) with
      | Ok (s', v), Ok (b', v') => v = v' /\ rel s' b'
      | Err x, Err x' => x = x'
      | _, _ => False
      end).
    { intros T n c p H1 H2 H3 H4. pose proof (@extrapolate_ok _ _ _ p H1 H2 H3 H4) as X. cbv zeta in *.
      destruct (diis_extrapolate _ _ _ _ _) as [[s' v]|er].
      - destruct X as [(-> & -> & HR)|(-> & -> & cs & -> & -> & HR)]; [auto|]. cbv zeta. split; [reflexivity|exact HR].
      - destruct (length (map snd T) <? min_space); [discriminate|]. destruct (length (map snd T) =? 0); [congruence|].
        destruct (lin_solve _ _); [discriminate|congruence]. }
    intros HR. inversion HR as [|T x n c p HI HB Hn HS]; subst.
    - unfold diis_call, diis_push, book_call. cbn [arrays errors counter cache diis_init previous kept length Nat.eqb dget dset].
      specialize (G [] 0%Z [] a). cbn [map arr_of err_of] in G. cbn [previous kept]. destruct e as [e|]; (apply G; [exact I|intros k []|lia|intros i j y X; discriminate X]).
    - unfold diis_call, diis_push, book_call. cbn [arrays previous kept length Nat.eqb].
      replace (dget Z.eq_dec (-1)%Z (((-1)%Z, p) :: arr_of (T ++ extra n x))) with (Some p) by reflexivity.
      set (e' := match e with Some e0 => e0 | None => vsub a p end).
      replace (match e with Some e0 => _ | None => _ end) with (store gtb space (mkd (((-1)%Z, p) :: arr_of (T ++ extra n x)) (err_of (T ++ extra n x)) n c) a e').
      2:{ unfold e'. destruct e; reflexivity. }
      destruct (@store_ok T x n c p a e' HI HB Hn HS) as (T' & c' & -> & HK & HI' & HB' & HS').
      rewrite <- HK. apply G; try assumption. lia.
  Qed.

  Lemma run_refines h : forall s b, rel s b ->
    match diis_run gtb nonzero lin_solve space min_space factor s h, book_run gtb nonzero lin_solve space min_space factor b h with
    | Ok (_, vs), Ok vs' => vs = vs'
    | Err x, Err x' => x = x'
    | _, _ => False
    end.
  Proof.
    induction h as [|[a e] h IH]; intros s b HR; [reflexivity|]. cbn. pose proof (call_refines a e HR) as X.
    destruct (call s a e) as [[s' v]|x], (bcall b a e) as [[b' v']|x']; try contradiction; [|exact X].
    destruct X as [<- HR']. specialize (IH s' b' HR').
    destruct (diis_run _ _ _ _ _ _ s' h) as [[s'' vs]|y], (book_run _ _ _ _ _ _ b' h) as [vs'|y']; try contradiction; congruence.
  Qed.
  Lemma run_rel h : forall s b s' vs, rel s b -> diis_run gtb nonzero lin_solve space min_space factor s h = Ok (s', vs) -> exists b', rel s' b'.
  Proof.
    induction h as [|[a e] h IH]; intros s b s' vs HR H; cbn in H; [injection H as <- <-; eauto|].
    pose proof (call_refines a e HR) as X. destruct (call s a e) as [[s1 v]|x]; [|discriminate].
    destruct (bcall b a e) as [[b1 v']|]; [|contradiction]. destruct X as [_ HR1].
    destruct (diis_run _ _ _ _ _ _ s1 h) as [[s2 vs2]|] eqn:E; [|discriminate]. injection H as <- <-. eapply IH; eauto.
  Qed.
End Refine.
