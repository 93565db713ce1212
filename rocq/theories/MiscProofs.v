(** Proofs about namespaces and time formatting. *)
From Coq Require Import QArith Qround Lqa.
From Verif Require Import Base ListAux MiscModel MiscSpec.
Set Implicit Arguments.
Local Open Scope nat_scope.

Lemma filter_all_true {A} (p : A -> bool) l : (forall x, In x l -> p x = true) -> filter p l = l.
Proof. induction l as [|x l IH]; intros H; [reflexivity|]. cbn. rewrite H by (left; reflexivity). f_equal. apply IH. intros y Hy. apply H. right; exact Hy. Qed.

Section NS.
  Variables (V : Type) (veqb : V -> V -> bool) (cn : list pystr).
  Implicit Types (d : ns V) (D : sdict V).

  Definition rel d D : Prop := order D = map fst d /\ NoDup (map fst d) /\ forall k, look D k = nget k d.

  Lemma nget_In k d : nget k d <> None <-> In k (map fst d).
  Proof.
    induction d as [|[k' v'] d IH]; cbn; [split; [congruence|tauto]|]. unfold nget in *. cbn.
    destruct (pystr_eq_dec k k') as [->|E]; [split; [auto|congruence]|]. rewrite IH. split; [auto|]. intros [H|H]; [congruence|exact H].
  Qed.
  Lemma nget_nset k v d j : nget j (nset k v d) = if pystr_eq_dec j k then Some v else nget j d.
  Proof.
    unfold nget, nset. induction d as [|[k' v'] d IH]; cbn.
    - destruct (pystr_eq_dec j k); reflexivity.
    - destruct (pystr_eq_dec k k') as [->|E]; cbn; destruct (pystr_eq_dec j k'); try reflexivity.
      + destruct (pystr_eq_dec j k); [congruence|reflexivity].
      + exact IH.
  Qed.
  Lemma keys_nset k v d : map fst (nset k v d) = if in_dec pystr_eq_dec k (map fst d) then map fst d else map fst d ++ [k].
  Proof.
    unfold nset. induction d as [|[k' v'] d IH]; [reflexivity|]. cbn [dset map fst].
    destruct (pystr_eq_dec k k') as [->|E].
    - cbn [map fst]. destruct (in_dec pystr_eq_dec k' (k' :: map fst d)) as [|n]; [reflexivity|]. exfalso; apply n; left; reflexivity.
    - cbn [map fst]. rewrite IH. destruct (in_dec pystr_eq_dec k (map fst d)) as [i|n]; destruct (in_dec pystr_eq_dec k (k' :: map fst d)) as [i'|n'].
      + reflexivity.
      + exfalso. apply n'. right; exact i.
      + exfalso. destruct i' as [i'|i']; [congruence|exact (n i')].
      + reflexivity.
  Qed.
  Lemma rel_put d D k v : rel d D -> rel (nset k v d) (put D k v).
  Proof.
    intros (H1 & H2 & H3). unfold rel, put. cbn [order look]. rewrite H1, keys_nset. split; [reflexivity|]. split.
    - destruct (in_dec _ _ _) as [i|n]; [exact H2|].
      apply (Permutation_NoDup (l := k :: map fst d)); [apply Permutation_cons_append|constructor; assumption].
    - intros j. rewrite nget_nset, H3. reflexivity.
  Qed.
  Lemma rel_put_all kw : forall d D, rel d D -> rel (fold_left (fun d p => nset (fst p) (snd p) d) kw d) (put_all D kw).
  Proof. induction kw as [|p kw IH]; intros d D H; cbn; [exact H|]. apply IH, rel_put, H. Qed.
  Lemma rel_empty : rel [] (empty V).
  Proof. split; [reflexivity|]. split; [constructor|reflexivity]. Qed.

  Lemma keys_ndel k d : NoDup (map fst d) -> map fst (ndel k d) = filter (fun j => negb (streqb j k)) (map fst d).
  Proof.
    unfold ndel. induction d as [|[k' v'] d IH]; intros N; [reflexivity|]. cbn [ddel map fst filter] in *. inversion N; subst.
    unfold streqb at 1. destruct (pystr_eq_dec k k') as [->|E].
    - destruct (pystr_eq_dec k' k'); [|congruence]. cbn [negb]. symmetry. apply filter_all_true.
      intros j Hj. unfold streqb. destruct (pystr_eq_dec j k'); [subst; contradiction|reflexivity].
    - destruct (pystr_eq_dec k' k); [congruence|]. cbn [negb map fst]. f_equal. apply IH. assumption.
  Qed.
  Lemma nget_ndel k d j : NoDup (map fst d) -> nget j (ndel k d) = if pystr_eq_dec j k then None else nget j d.
  Proof.
    unfold nget, ndel. induction d as [|[k' v'] d IH]; intros N; cbn; [destruct (pystr_eq_dec j k); reflexivity|].
    cbn in N. inversion N; subst. destruct (pystr_eq_dec k k') as [->|E].
    - destruct (pystr_eq_dec j k') as [->|]; [|reflexivity]. destruct (dget pystr_eq_dec k' d) eqn:G; [|reflexivity].
      exfalso. apply H1. apply nget_In. unfold nget. congruence.
    - cbn. destruct (pystr_eq_dec j k') as [->|]; [destruct (pystr_eq_dec k' k); congruence|]. apply IH. assumption.
  Qed.
  Lemma rel_drop d D k : rel d D -> rel (ndel k d) (drop D k).
  Proof.
    intros (H1 & H2 & H3). unfold rel, drop. cbn [order look]. rewrite H1, keys_ndel by exact H2. split; [reflexivity|]. split.
    - apply NoDup_filter. exact H2.
    - intros j. rewrite nget_ndel, H3 by exact H2. reflexivity.
  Qed.

  Lemma ns_init_dict d : NoDup (map fst d) -> forall d0, NoDup (map fst (d0 ++ d)) ->
    fold_left (fun d p => nset (fst p) (snd p) d) d d0 = d0 ++ d.
  Proof.
    induction d as [|[k v] d IH]; intros N d0 N0; [symmetry; apply app_nil_r|]. cbn [fold_left fst snd].
    assert (E : nset k v d0 = d0 ++ [(k, v)]).
    { rewrite map_app in N0. cbn in N0. apply NoDup_remove_2 in N0. clear IH N. revert N0.
      induction d0 as [|[k' v'] d0 IH]; intros N0; [reflexivity|]. unfold nset in *. cbn [dset].
      destruct (pystr_eq_dec k k') as [->|]; [exfalso; apply N0; left; reflexivity|].
      cbn [app]. f_equal. apply IH. intros X. apply N0. right. exact X. }
    rewrite E. cbn in N. inversion N; subst. rewrite IH; [rewrite <- app_assoc; reflexivity|assumption|].
    rewrite <- app_assoc. exact N0.
  Qed.
  Lemma ns_init_id d : NoDup (map fst d) -> ns_init d = d.
  Proof. intros N. unfold ns_init. apply (@ns_init_dict d N []). exact N. Qed.

  Lemma ns_eq_spec d D d' D' : rel d D -> rel d' D' -> (ns_eq veqb d d' = true <-> same_content veqb D D').
  Proof.
    intros (H1 & H2 & H3) (H1' & H2' & H3'). unfold ns_eq, same_content. rewrite andb_true_iff, Nat.eqb_eq, forallb_forall.
    assert (G : forall k v, In (k, v) d -> nget k d = Some v).
    { intros k v. clear - H2. induction d as [|[k0 v0] d IH]; intros Hi; [destruct Hi|]. unfold nget in *. cbn in *. inversion H2; subst.
      destruct Hi as [E|Hi]; [injection E as -> ->; destruct (pystr_eq_dec k k); congruence|].
      destruct (pystr_eq_dec k k0) as [->|]; [exfalso; apply H1; apply in_map_iff; exists (k0, v); auto|]. apply IH; assumption. }
    assert (G' : forall k v, nget k d = Some v -> In (k, v) d).
    { intros k v. clear. induction d as [|[k0 v0] d IH]; unfold nget in *; cbn; [discriminate|].
      destruct (pystr_eq_dec k k0) as [->|]; [intros E; injection E as ->; left; reflexivity|]. intros E. right. apply IH, E. }
    split.
    - intros [HL HA] k. rewrite H3, H3'. destruct (nget k d) as [v|] eqn:E.
      + specialize (HA _ (G' _ _ E)). cbn [fst snd] in HA. destruct (nget k d'); [exact HA|discriminate].
      + destruct (nget k d') as [w|] eqn:E'; [|exact I].
        assert (Hin : In k (map fst d')) by (apply nget_In; congruence).
        assert (Hincl : incl (map fst d') (map fst d)).
        { apply NoDup_length_incl; [exact H2|rewrite !map_length; lia|]. intros j Hj. apply in_map_iff in Hj as ([j' v] & <- & Hj).
          specialize (HA _ Hj). cbn [fst snd] in *. apply nget_In. destruct (nget j' d'); congruence. }
        apply Hincl, nget_In in Hin. congruence.
    - intros HS. split.
      + rewrite <- (map_length fst d), <- (map_length fst d'). apply Permutation_length, NoDup_Permutation; [exact H2|exact H2'|].
        intros k. rewrite <- !nget_In. specialize (HS k). rewrite H3, H3' in HS. destruct (nget k d), (nget k d'); intuition congruence.
      + intros [k v] Hi. cbn [fst snd]. specialize (HS k). rewrite H3, H3', (G _ _ Hi) in HS. destruct (nget k d'); [exact HS|destruct HS].
  Qed.

  Lemma ns_clear_nil fuel : forall d, length d < fuel -> ns_clear fuel d = [].
  Proof.
    induction fuel as [|n IH]; intros d H; [lia|]. cbn [ns_clear]. destruct d as [|[k v] d]; [reflexivity|].
    unfold ns_popitem, ns_getitem, ns_delitem, nget, ndel. cbn [dget ddel].
    destruct (pystr_eq_dec k k); [|congruence]. cbn [fst]. apply IH. cbn in H. lia.
  Qed.

  Lemma class_name_spec k : is_class_name cn k = true <-> In k cn.
  Proof.
    unfold is_class_name. rewrite existsb_exists. unfold streqb. split.
    - intros (x & H1 & H2). destruct (pystr_eq_dec k x); [subst; exact H1|discriminate].
    - intros H. exists k. split; [exact H|]. destruct (pystr_eq_dec k k); congruence.
  Qed.

  Lemma step_obj_sim d D a o : rel d D -> target a = Some o ->
    exists D', answers cn D a D' (snd (step_obj cn d a)) /\ rel (fst (step_obj cn d a)) D'.
  Proof.
    intros HR Ht. pose proof HR as (H1 & H2 & H3).
    assert (Hdel : forall k, exists D', match look D k with
        | Some _ => snd (ns_delitem d k) = RNone /\ D' = drop D k | None => snd (ns_delitem d k) = RErr KeyError /\ D' = D end
        /\ rel (fst (ns_delitem d k)) D').
    { intros k. unfold ns_delitem. rewrite H3. destruct (nget k d); cbn [fst snd].
      - eexists. split; [split; reflexivity|apply rel_drop, HR].
      - eexists. split; [split; reflexivity|exact HR]. }
    destruct a; try discriminate; cbn [step_obj fst snd answers].
    - eexists. split; [split; reflexivity|apply rel_put, HR].
    - eexists. split; [split; reflexivity|apply rel_put, HR].
    - eexists. split; [split; [reflexivity|]|exact HR]. unfold ns_getitem. rewrite H3. destruct (nget k d); reflexivity.
    - eexists. split; [split; [reflexivity|]|exact HR]. unfold ns_getattr. destruct (is_class_name cn k) eqn:E.
      + left. split; [apply class_name_spec, E|reflexivity].
      + right. split; [rewrite <- class_name_spec; congruence|]. unfold ns_getitem. rewrite H3. destruct (nget k d); reflexivity.
    - apply Hdel.
    - apply Hdel.
    - eexists. split; [split; [reflexivity|]|exact HR]. eexists. split; [reflexivity|]. rewrite H3. unfold dmem. fold (nget k d).
      destruct (nget k d); intuition congruence.
    - eexists. split; [split; [reflexivity|]|exact HR]. rewrite H1, map_length. reflexivity.
    - eexists. split; [split; [reflexivity|]|exact HR]. rewrite H1. reflexivity.
    - eexists. split; [split; [reflexivity|]|exact HR]. eexists. split; [reflexivity|].
      rewrite H1, !map_map. apply map_ext_in. intros [k v] Hi. cbn. rewrite H3.
      symmetry. clear - H2 Hi. induction d as [|[k0 v0] d IH]; [destruct Hi|]. unfold nget in *. cbn in *. inversion H2; subst.
      destruct Hi as [E|Hi]; [injection E as -> ->; destruct (pystr_eq_dec k k); congruence|].
      destruct (pystr_eq_dec k k0) as [->|]; [exfalso; apply H1; apply in_map_iff; exists (k0, v); auto|]. apply IH; assumption.
    - eexists. split; [split; [reflexivity|]|exact HR]. eexists. split; [reflexivity|].
      rewrite H1, !map_map. apply map_ext_in. intros [k v] Hi. cbn. rewrite H3. f_equal.
      symmetry. clear - H2 Hi. induction d as [|[k0 v0] d IH]; [destruct Hi|]. unfold nget in *. cbn in *. inversion H2; subst.
      destruct Hi as [E|Hi]; [injection E as -> ->; destruct (pystr_eq_dec k k); congruence|].
      destruct (pystr_eq_dec k k0) as [->|]; [exfalso; apply H1; apply in_map_iff; exists (k0, v); auto|]. apply IH; assumption.
    - eexists. split; [split; [reflexivity|]|exact HR]. unfold ns_getitem. rewrite H3. destruct (nget k d); reflexivity.
    - rewrite H3. unfold ns_getitem, ns_delitem. destruct (nget k d) eqn:E; cbn [fst snd].
      + eexists. split; [split; reflexivity|]. apply rel_drop, HR.
      + destruct v; cbn [fst snd]; eexists; (split; [split; reflexivity|exact HR]).
    - rewrite H1. unfold ns_popitem. destruct d as [|[k v] d]; cbn [fst snd map].
      + eexists. split; [split; reflexivity|exact HR].
      + unfold ns_getitem, ns_delitem. assert (E : nget k ((k, v) :: d) = Some v).
        { unfold nget. cbn. destruct (pystr_eq_dec k k); congruence. }
        rewrite E. cbn [fst snd]. eexists. split; [exists v; split; [rewrite H3; exact E|split; reflexivity]|]. apply rel_drop, HR.
    - rewrite H3. unfold ns_getitem. destruct (nget k d) eqn:E; cbn [fst snd].
      + eexists. split; [split; reflexivity|exact HR].
      + eexists. split; [split; reflexivity|]. apply rel_put, HR.
    - eexists. split; [split; reflexivity|]. apply rel_put_all, HR.
    - exists (empty V). split; [repeat split|]. rewrite ns_clear_nil by lia. apply rel_empty.
  Qed.

  Lemma set_nth_length {A} i (x : A) l : length (set_nth i x l) = length l.
  Proof. revert i; induction l as [|y l IH]; intros [|i]; cbn; try reflexivity. f_equal. apply IH. Qed.
  Lemma set_nth_eq {A} i (x : A) l : i < length l -> nth_error (set_nth i x l) i = Some x.
  Proof. revert i; induction l as [|y l IH]; intros [|i] H; cbn in *; try lia; [reflexivity|]. apply IH. lia. Qed.
  Lemma set_nth_neq {A} i j (x : A) l : j <> i -> nth_error (set_nth i x l) j = nth_error l j.
  Proof. revert i j; induction l as [|y l IH]; intros [|i] [|j] H; cbn; try reflexivity; [congruence|]. apply IH. congruence. Qed.

  Lemma Forall2_nth {A B} (R : A -> B -> Prop) l l' : Forall2 R l l' -> forall i,
    match nth_error l i, nth_error l' i with Some a, Some b => R a b | None, None => True | _, _ => False end.
  Proof. induction 1 as [|a b l l' H HF IH]; intros [|i]; cbn; try exact I; [exact H|apply IH]. Qed.
  Lemma Forall2_set_nth {A B} (R : A -> B -> Prop) l l' i x y : Forall2 R l l' -> R x y -> Forall2 R (set_nth i x l) (set_nth i y l').
  Proof. intros H. revert i. induction H; intros [|i] Hxy; cbn; constructor; auto. Qed.

  Lemma step_sim h H a : Forall2 rel h H ->
    exists H', sstep veqb cn H a H' (snd (step veqb cn h a)) /\ Forall2 rel (fst (step veqb cn h a)) H'.
  Proof.
    intros HR. pose proof (Forall2_len HR) as HL.
    assert (Hobj : forall o, target a = Some o ->
      exists H', match nth_error H o with
        | None => H' = H /\ snd (match nth_error h o with None => (h, RNoObject) | Some d => (set_nth o (fst (step_obj cn d a)) h, snd (step_obj cn d a)) end) = RNoObject
        | Some D => exists D', answers cn D a D' (snd (match nth_error h o with None => (h, RNoObject) | Some d => (set_nth o (fst (step_obj cn d a)) h, snd (step_obj cn d a)) end)) /\ length H' = length H /\ nth_error H' o = Some D' /\
              forall i, i <> o -> nth_error H' i = nth_error H i end /\
        Forall2 rel (fst (match nth_error h o with None => (h, RNoObject) | Some d => (set_nth o (fst (step_obj cn d a)) h, snd (step_obj cn d a)) end)) H').
    { intros o Ho. pose proof (Forall2_nth HR o) as X. destruct (nth_error h o) as [d|] eqn:E; destruct (nth_error H o) as [D|] eqn:E'; try (exfalso; exact X).
      - destruct (step_obj_sim a X Ho) as (D' & A1 & A2). exists (set_nth o D' H). cbn [fst snd]. split.
        + exists D'. split; [exact A1|]. split; [apply set_nth_length|]. split; [apply set_nth_eq; apply nth_error_Some; congruence|].
          intros i Hi. apply set_nth_neq, Hi.
        + apply Forall2_set_nth; assumption.
      - exists H. cbn [fst snd]. split; [split; reflexivity|exact HR]. }
    destruct a; try (apply (Hobj o eq_refl)); clear Hobj; cbn [step sstep].
    - eexists. cbn [fst snd]. split; [split; [reflexivity|f_equal; exact HL]|]. apply Forall2_app; [exact HR|].
      constructor; [|constructor]. apply (rel_put_all kw rel_empty).
    - pose proof (Forall2_nth HR o) as X. destruct (nth_error h o) as [d|]; destruct (nth_error H o) as [D|]; try (exfalso; exact X); cbn [fst snd].
      + exists (H ++ [D]). split; [split; [f_equal; exact HL|]; exists D; repeat split|]. apply Forall2_app; [exact HR|].
        constructor; [|constructor]. rewrite ns_init_id by (destruct X as (_ & X & _); exact X). exact X.
      + exists H. split; [split; reflexivity|exact HR].
    - pose proof (Forall2_nth HR o) as X. pose proof (Forall2_nth HR o') as X'.
      destruct (nth_error h o) as [d|]; destruct (nth_error H o) as [D|]; try (exfalso; exact X);
      destruct (nth_error h o') as [d'|]; destruct (nth_error H o') as [D'|]; try (exfalso; exact X'); cbn [fst snd]; exists H;
      (split; [split; [reflexivity|]|exact HR]); try reflexivity.
      eexists. split; [reflexivity|]. apply ns_eq_spec; assumption.
  Qed.

  Lemma run_sim l : forall h H, Forall2 rel h H -> sruns veqb cn H l (run veqb cn h l).
  Proof.
    induction l as [|a l IH]; intros h H HR; cbn [run sruns]; [exact I|].
    destruct (step_sim a HR) as (H' & S1 & S2). exists H'. split; [exact S1|]. apply IH, S2.
  Qed.
  Lemma namespace_is_dict l : sruns veqb cn [] l (run veqb cn [] l).
  Proof. apply run_sim. constructor. Qed.
End NS.

(** Elapsed times. *)
Lemma format_time_all s p : format_time s p = format_pieces s.
Proof.
  unfold format_time, last_n. destruct (Nat.max p (length (format_pieces s)) =? 0); [reflexivity|].
  replace (length (format_pieces s) - Nat.max p (length (format_pieces s))) with 0 by lia. reflexivity.
Qed.

Lemma format_pieces_total s : (0 <= s)%Q -> total_ms (format_pieces s) = Qfloor (s * 1000) /\ Forall in_range (format_pieces s).
Proof.
  intros Hs. unfold format_pieces, divmodQ.
  set (s0 := Qfloor (s / inject_Z 1)). set (f := (s - inject_Z (s0 * 1))%Q).
  assert (E1 : (s / inject_Z 1 == s)%Q) by (unfold Qdiv; cbn; field).
  assert (Hs0 : (inject_Z s0 <= s)%Q) by (apply Qle_trans with (s / inject_Z 1)%Q; [apply Qfloor_le|rewrite E1; apply Qle_refl]).
  assert (Hs1 : (s < inject_Z (s0 + 1))%Q) by (apply Qle_lt_trans with (s / inject_Z 1)%Q; [rewrite E1; apply Qle_refl|apply Qlt_floor]).
  assert (Hf : (f == s - inject_Z s0)%Q) by (unfold f; rewrite Z.mul_1_r; reflexivity).
  rewrite inject_Z_plus in Hs1. change (inject_Z 1) with 1%Q in Hs1.
  assert (F0 : (0 <= f)%Q) by lra. assert (F1 : (f < 1)%Q) by lra.
  assert (S0 : (0 <= s0)%Z).
  { unfold s0. rewrite <- (Qfloor_Z 0). apply Qfloor_resp_le. rewrite E1. exact Hs. }
  assert (M : Qfloor (s * 1000) = (s0 * 1000 + Qfloor (f * 1000))%Z).
  { assert (X : (s * 1000 == f * 1000 + inject_Z (s0 * 1000))%Q).
    { rewrite Hf, inject_Z_mult. change (inject_Z 1000) with 1000%Q. ring. }
    rewrite X. assert (Y : forall q z, Qfloor (q + inject_Z z) = (Qfloor q + z)%Z).
    { intros [n dd] z. unfold Qfloor, Qplus, inject_Z. cbn. rewrite Z.mul_1_r, Pos.mul_1_r. apply Z.div_add. lia. }
    rewrite Y. lia. }
  assert (Fm0 : (0 <= Qfloor (f * 1000))%Z).
  { rewrite <- (Qfloor_Z 0). apply Qfloor_resp_le. change (inject_Z 0) with 0%Q. lra. }
  assert (Fm1 : (Qfloor (f * 1000) < 1000)%Z).
  { rewrite Zlt_Qlt. apply Qle_lt_trans with (f * 1000)%Q; [apply Qfloor_le|]. change (inject_Z 1000) with 1000%Q. lra. }
  assert (Fz : Qeq_bool (f * 1000) 0 = true -> Qfloor (f * 1000) = 0%Z).
  { intros X. apply Qeq_bool_iff in X. rewrite X. reflexivity. }
  pose proof (Z.div_mod s0 60 ltac:(lia)) as D1. pose proof (Z.mod_pos_bound s0 60 ltac:(lia)) as B1.
  set (m0 := (s0 / 60)%Z) in *. set (sec := (s0 mod 60)%Z) in *.
  assert (M0 : (0 <= m0)%Z) by (apply Z.div_pos; lia).
  pose proof (Z.div_mod m0 60 ltac:(lia)) as D2. pose proof (Z.mod_pos_bound m0 60 ltac:(lia)) as B2.
  set (hr := (m0 / 60)%Z) in *. set (mn := (m0 mod 60)%Z) in *.
  assert (H0 : (0 <= hr)%Z) by (apply Z.div_pos; lia).
  split.
  - rewrite M. unfold total_ms. rewrite !fold_right_app.
    destruct (Qeq_bool (f * 1000) 0) eqn:E; [rewrite (Fz eq_refl)|];
      destruct (Z.eqb_spec hr 0), (Z.eqb_spec mn 0), (Z.eqb_spec sec 0); cbn [fold_right fst snd unit_ms]; lia.
  - rewrite !Forall_app. repeat split.
    + destruct (Z.eqb_spec hr 0); constructor; [|constructor]. unfold in_range; cbn [fst snd]. lia.
    + destruct (Z.eqb_spec mn 0); constructor; [|constructor]. unfold in_range; cbn [fst snd]. lia.
    + destruct (Z.eqb_spec sec 0); constructor; [|constructor]. unfold in_range; cbn [fst snd]. lia.
    + destruct (Qeq_bool _ _); constructor; [|constructor]. unfold in_range; cbn [fst snd]. lia.
Qed.

Lemma prod_ints_spec l : prod_ints l = fold_right Z.mul 1%Z l.
Proof.
  unfold prod_ints. assert (X : forall l a, fold_left (fun o v => (o * v)%Z) l a = (a * fold_right Z.mul 1%Z l)%Z).
  { clear. induction l as [|x l IH]; intros a; cbn; [lia|]. rewrite IH. lia. }
  rewrite X. lia.
Qed.
