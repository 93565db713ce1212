(** Proofs about contexts, options and files. *)
From Coq Require Import String.
From Verif Require Import Base SpaceModel AnsatzModel CoreModel CoreSpec KernelProofs DampProofs MiscProofs.
Set Implicit Arguments.
Local Open Scope string_scope.
Local Open Scope list_scope.
Local Open Scope nat_scope.
Local Open Scope py_scope.

Section Precision.
  Variable T : Type.
  Implicit Types (p : prog T) (s : ptypes T).

  Lemma contained_quiet p : forall s, contained true p = true -> snd (prun p s) = true.
  Proof.
    induction p; intros s H; cbn [contained prun] in *; auto.
    - specialize (IHp s H). destruct (prun p s) as [[? ?] ?]. exact IHp.
    - apply andb_prop in H as [H1 H2]. specialize (IHp1 (set_precision k s) H1).
      destruct (prun p1 _) as [[o1 s1] ok1]. cbn in IHp1. subst ok1.
      match goal with |- context [prun p2 ?x] => specialize (IHp2 x H2); destruct (prun p2 x) as [[? ?] ?] end. exact IHp2.
    - apply andb_prop in H as [H H3]. apply andb_prop in H as [H1 H2].
      destruct (prun p1 s) as [[o1 s1] ok1]. destruct ok1.
      + specialize (IHp3 s1 H3). destruct (prun p3 s1) as [[? ?] ?]. exact IHp3.
      + specialize (IHp2 s1 H2). destruct (prun p2 s1) as [[o2 s2] ok2]. cbn in IHp2. subst ok2.
        specialize (IHp3 s2 H3). destruct (prun p3 s2) as [[? ?] ?]. exact IHp3.
  Qed.

  Lemma contained_mono p : contained true p = true -> contained false p = true.
  Proof.
    induction p; cbn [contained]; intros H; auto.
    - apply andb_prop in H as [H1 H2]. rewrite H1. cbn. auto.
    - apply andb_prop in H as [H H3]. apply andb_prop in H as [H1 H2]. rewrite H1, IHp2, IHp3; auto.
  Qed.

  Lemma prun_scoped p : forall s, contained false p = true -> prun p s = scoped p s.
  Proof.
    induction p; intros s H; cbn [contained prun scoped] in *; auto.
    - rewrite IHp by assumption. reflexivity.
    - apply andb_prop in H as [H1 H2].
      pose proof (contained_quiet _ (set_precision k s) H1) as Q.
      rewrite (IHp1 _ (contained_mono _ H1)) in *. unfold set_precision, given in *. cbn [fst snd] in *.
      destruct (scoped p1 _) as [[o1 s1] ok1]. cbn in Q. subst ok1.
      cbn [fst snd]. rewrite <- surjective_pairing. rewrite IHp2 by assumption. reflexivity.
    - apply andb_prop in H as [H H3]. apply andb_prop in H as [H1 H2].
      rewrite IHp1 by assumption. destruct (scoped p1 s) as [[o1 s1] ok1]. destruct ok1.
      + rewrite IHp3 by assumption. destruct (scoped p3 s1) as [[? ?] ?]. reflexivity.
      + rewrite IHp2 by assumption. destruct (scoped p2 s1) as [[o2 s2] ok2]. destruct ok2; [|reflexivity].
        rewrite IHp3 by assumption. reflexivity.
  Qed.

  Lemma with_normal (k : pkw T) body rest s o s1 :
    prun body (set_precision k s) = (o, s1, true) ->
    prun (PWith k body rest) s = (let '(o2, s2, ok2) := prun rest s in (o ++ o2, s2, ok2)).
  Proof.
    intros H. cbn [prun]. rewrite H. unfold set_precision at 1. cbn [given fst snd]. rewrite <- surjective_pairing. reflexivity.
  Qed.
  Lemma with_escape (k : pkw T) body rest s o s1 :
    prun body (set_precision k s) = (o, s1, false) -> prun (PWith k body rest) s = (o, s1, false).
  Proof. intros H. cbn [prun]. rewrite H. reflexivity. Qed.
End Precision.

Section Options.
  Variables (V : Type) (vfalse : V).
  Implicit Types (w : world V) (d o : opts V).

  Lemma update_nth_length {A} (f : A -> A) i l : length (update_nth i f l) = length l.
  Proof. revert i. induction l; intros [|i]; cbn; auto. Qed.
  Lemma update_nth_same {A} (f : A -> A) i l : nth_error (update_nth i f l) i = option_map f (nth_error l i).
  Proof. revert i. induction l; intros [|i]; cbn; auto. Qed.
  Lemma update_nth_other {A} (f : A -> A) i j l : i <> j -> nth_error (update_nth i f l) j = nth_error l j.
  Proof. revert i j. induction l; intros [|i] [|j] H; cbn; auto; try congruence. Qed.

  (** What a constructor does to the objects, with the reference made explicit. *)
  Definition touched d (r : option nat) kw (b : bool) w (j : nat) : option (opts V) :=
    let objs := match r with None => w_objs w ++ [d] | Some _ => w_objs w end in
    let i := match r with None => length (w_objs w) | Some i => i end in
    if Nat.eq_dec i j
    then option_map (fun o => let o := oset o kw in if b then o else dset pystr_eq_dec k_shift vfalse o) (nth_error objs j)
    else nth_error objs j.
  Lemma construct_objs d r kw b w j :
    nth_error (w_objs (construct_opts vfalse d r kw b w)) j = touched d r kw b w j.
  Proof.
    unfold construct_opts, touched. destruct r as [r|]; cbn [w_objs].
    - destruct b; destruct (Nat.eq_dec r j) as [<-|N].
      + now rewrite update_nth_same.
      + now rewrite update_nth_other.
      + rewrite !update_nth_same. destruct (nth_error (w_objs w) r); reflexivity.
      + now rewrite !update_nth_other.
    - set (r := length (w_objs w)). destruct b; destruct (Nat.eq_dec r j) as [<-|N].
      + now rewrite update_nth_same.
      + now rewrite update_nth_other.
      + rewrite !update_nth_same. destruct (nth_error _ r); reflexivity.
      + now rewrite !update_nth_other.
  Qed.
  Lemma construct_calcs d r kw b w :
    w_calcs (construct_opts vfalse d r kw b w) = w_calcs w ++ [mkcalc (match r with None => length (w_objs w) | Some i => i end) b].
  Proof. destruct r; reflexivity. Qed.

  Definition refs_ok w := Forall (fun c => c_ref c < length (w_objs w)) (w_calcs w).
  (** Every reference given to a constructor is that of an existing object. *)
  Definition valid_event w (e : oevent V) : Prop :=
    match e with Construct (Some r) _ _ => r < length (w_objs w) | _ => True end.
  Fixpoint valid_history d w (h : list (oevent V)) : Prop :=
    match h with [] => True | e :: h' => valid_event w e /\ valid_history d (ostep vfalse d w e) h' end.

  Lemma construct_len d r kw b w :
    length (w_objs (construct_opts vfalse d r kw b w)) = length (w_objs w) + match r with None => 1 | Some _ => 0 end.
  Proof.
    unfold construct_opts. destruct r, b; cbn [w_objs]; rewrite ?update_nth_length, ?app_length; cbn; lia.
  Qed.
  Lemma step_refs d w e : valid_event w e -> refs_ok w -> refs_ok (ostep vfalse d w e).
  Proof.
    intros He H. unfold refs_ok in *.
    assert (C : forall r kw b, match r with Some r => r < length (w_objs w) | None => True end ->
              Forall (fun c => c_ref c < length (w_objs (construct_opts vfalse d r kw b w))) (w_calcs (construct_opts vfalse d r kw b w))).
    { intros r kw b Hr. rewrite construct_len, construct_calcs. apply Forall_app; split.
      - eapply Forall_impl; [|exact H]. cbn. intros; lia.
      - constructor; [|constructor]. cbn. destruct r; lia. }
    destruct e as [o|r kw b|c]; cbn [ostep].
    - cbn. eapply Forall_impl; [|exact H]. cbn. intros. rewrite app_length. cbn. lia.
    - apply C. destruct r; exact He.
    - destruct (nth_error (w_calcs w) c) as [x|] eqn:E; [|exact H]. apply C.
      rewrite Forall_forall in H. apply H. eapply nth_error_In; eauto.
  Qed.
  Lemma run_refs d h : forall w, valid_history d w h -> refs_ok w -> refs_ok (fold_left (ostep vfalse d) h w).
  Proof. induction h; intros w V0 H; cbn in *; auto. destruct V0. apply IHh; auto. apply step_refs; auto. Qed.

  Lemma seen_old d r kw b w i : i < length (w_calcs w) ->
    seen (construct_opts vfalse d r kw b w) i =
    match nth_error (w_calcs w) i with Some c => touched d r kw b w (c_ref c) | None => None end.
  Proof.
    intros H. unfold seen. rewrite construct_calcs, nth_error_app1 by assumption.
    destruct (nth_error (w_calcs w) i) as [c|]; [|reflexivity]. unfold options_of. apply construct_objs.
  Qed.

  Lemma fresh_untouched d h kw b i : valid_history d world0 h -> i < length (w_calcs (orun vfalse d h)) ->
    seen (ostep vfalse d (orun vfalse d h) (Construct None kw b)) i = seen (orun vfalse d h) i.
  Proof.
    intros Hv Hi. set (w := orun vfalse d h) in *.
    assert (R : refs_ok w) by (apply run_refs; [exact Hv|constructor]).
    cbn [ostep]. rewrite seen_old by assumption. unfold seen.
    destruct (nth_error (w_calcs w) i) as [c|] eqn:E; [|reflexivity].
    assert (c_ref c < length (w_objs w)) by (unfold refs_ok in R; rewrite Forall_forall in R; apply R; eapply nth_error_In; eauto).
    unfold touched, options_of. destruct (Nat.eq_dec _ _); [lia|]. now rewrite nth_error_app1.
  Qed.

  Lemma oset_get kw : forall o k, NoDup (map fst kw) ->
    dget pystr_eq_dec k (oset o kw) = match dget pystr_eq_dec k kw with Some v => Some v | None => dget pystr_eq_dec k o end.
  Proof.
    induction kw as [|[k1 v1] kw IH]; intros o k H; [reflexivity|]. cbn in H. inversion_clear H.
    unfold oset in *. cbn [fold_left fst snd]. rewrite IH by assumption. cbn [dget].
    destruct (pystr_eq_dec k k1) as [->|N].
    - assert (dget pystr_eq_dec k1 kw = None) as ->.
      { destruct (dget pystr_eq_dec k1 kw) eqn:E; auto. exfalso. apply H0. apply dget_in in E. apply in_map_iff. now exists (k1, v). }
      rewrite (@dget_dset _ _ pystr_eq_dec). destruct (pystr_eq_dec k1 k1); congruence.
    - rewrite (@dget_dset _ _ pystr_eq_dec). destruct (pystr_eq_dec k k1); congruence.
  Qed.
  Lemma oset_miss kw : forall o k, ~ In k (map fst kw) -> dget pystr_eq_dec k (oset o kw) = dget pystr_eq_dec k o.
  Proof.
    induction kw as [|[k1 v1] kw IH]; intros o k H; [reflexivity|]. unfold oset in *. cbn [fold_left fst snd]. cbn in H.
    rewrite IH by tauto. rewrite (@dget_dset _ _ pystr_eq_dec). destruct (pystr_eq_dec k k1); [subst; tauto|reflexivity].
  Qed.

  Lemma new_options d r kw b w base : NoDup (map fst kw) ->
    match r with None => base = d | Some r => nth_error (w_objs w) r = Some base end ->
    exists o, seen (construct_opts vfalse d r kw b w) (length (w_calcs w)) = Some o /\
      forall k, dget pystr_eq_dec k o =
        if (if pystr_eq_dec k k_shift then negb b else false) then Some vfalse
        else match dget pystr_eq_dec k kw with Some v => Some v | None => dget pystr_eq_dec k base end.
  Proof.
    intros ND Hb. unfold seen. rewrite construct_calcs, nth_error_app2, Nat.sub_diag by lia. cbn [nth_error].
    unfold options_of. rewrite construct_objs. cbn [c_ref].
    exists (let o := oset base kw in if b then o else dset pystr_eq_dec k_shift vfalse o). split.
    - unfold touched. destruct r as [r|].
      + destruct (Nat.eq_dec r r); [|congruence]. rewrite Hb. reflexivity.
      + destruct (Nat.eq_dec _ _); [|congruence]. subst base. rewrite nth_error_app2, Nat.sub_diag by lia. reflexivity.
    - intros k. cbn zeta. destruct b; cbn [negb].
      + rewrite oset_get by assumption. destruct (pystr_eq_dec k k_shift); reflexivity.
      + rewrite (@dget_dset _ _ pystr_eq_dec). destruct (pystr_eq_dec k k_shift); [reflexivity|]. now apply oset_get.
  Qed.

  Lemma shared_effect d r kw b w i o : i < length (w_calcs w) -> seen w i = Some o ->
    (forall c, nth_error (w_calcs w) i = Some c -> c_ref c <> r -> seen (construct_opts vfalse d (Some r) kw b w) i = Some o) /\
    (exists o', seen (construct_opts vfalse d (Some r) kw b w) i = Some o' /\
       forall k, ~ In k (map fst kw) -> k <> k_shift -> dget pystr_eq_dec k o' = dget pystr_eq_dec k o).
  Proof.
    intros Hi Ho. rewrite seen_old by assumption. unfold seen in Ho.
    destruct (nth_error (w_calcs w) i) as [c|] eqn:E; [|discriminate]. unfold options_of in Ho. unfold touched. split.
    - intros c' Hc N. injection Hc as <-. destruct (Nat.eq_dec r (c_ref c)); [congruence|assumption].
    - destruct (Nat.eq_dec r (c_ref c)) as [->|N].
      + rewrite Ho. cbn [option_map]. eexists; split; [reflexivity|]. intros k Hk Hs. cbn zeta. destruct b.
        * now apply oset_miss.
        * rewrite (@dget_dset _ _ pystr_eq_dec). destruct (pystr_eq_dec k k_shift); [congruence|]. now apply oset_miss.
      + exists o. split; auto.
  Qed.

  Lemma dset_noop o k v : dget pystr_eq_dec k o = Some v -> dset pystr_eq_dec k v o = o.
  Proof.
    induction o as [|[k1 v1] o IH]; cbn; [discriminate|]. destruct (pystr_eq_dec k k1) as [->|N].
    - intros [= ->]. reflexivity.
    - intros H. now rewrite IH.
  Qed.
  Lemma convert_harmless d w c x o i : nth_error (w_calcs w) c = Some x -> options_of w x = Some o ->
    (c_bosons x = true \/ dget pystr_eq_dec k_shift o = Some vfalse) ->
    i < length (w_calcs w) -> seen (ostep vfalse d w (Convert c)) i = seen w i.
  Proof.
    intros Hc Ho Hs Hi. cbn [ostep]. rewrite Hc, seen_old by assumption. unfold seen, options_of in *.
    destruct (nth_error (w_calcs w) i) as [y|]; [|reflexivity]. unfold touched. cbn [oset fold_left].
    destruct (Nat.eq_dec (c_ref x) (c_ref y)) as [e|]; [|reflexivity]. rewrite <- e, Ho. cbn [option_map].
    destruct (c_bosons x); [reflexivity|]. destruct Hs as [?|Hs]; [discriminate|]. now rewrite dset_noop.
  Qed.
End Options.
