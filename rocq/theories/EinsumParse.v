(** Parsing of rendered subscripts. *)
From Coq Require Import Sorted Ring.
From Verif Require Import Base ListAux Alg ArrModel ArrProofs EinsumModel EinsumProofs EinsumThms EinsumSpec GroupProofs SpinProofs.
Set Implicit Arguments.

Lemma letter_not c d : is_letter c = true -> is_letter d = false -> (c =? d) = false.
Proof. intros H1 H2. apply Nat.eqb_neq. intros ->. congruence. Qed.

Section Parse.
  Variable K : rng.

  Fixpoint apply_signs (seps : list (nat * pystr)) (j : nat) (ops : list (arr K)) : list (arr K) :=
    match seps with
    | [] => ops
    | (c, _) :: seps' =>
        apply_signs seps' (S j)
          (if c =? ch_minus then match nth_error ops j with Some a => lupd j (arr_neg K a) ops | None => ops end else ops)
    end.

  Definition body (seps : list (nat * pystr)) : pystr := flat_map (fun t => fst t :: snd t) seps.
  Definition commas (seps : list (nat * pystr)) : pystr := flat_map (fun t => ch_comma :: snd t) seps.
  Definition tail (o : option pystr) : pystr := match o with Some o => ch_minus :: ch_gt :: o | None => [] end.

  Lemma replace_letters s rest j (ops : list (arr K)) r : letters s -> replace_signs K rest j ops = Ok r ->
    replace_signs K (s ++ rest) j ops = Ok (s ++ fst r, snd r).
  Proof.
    intros Hs Hr. induction s as [|c s IH]; cbn [app replace_signs]; [rewrite Hr; destruct r; reflexivity|].
    assert (Hc : is_letter c = true) by (apply Hs; left; reflexivity).
    rewrite !(letter_not c) by (assumption || reflexivity).
    rewrite IH by (intros x Hx; apply Hs; right; exact Hx). reflexivity.
  Qed.

  Lemma replace_tail o j (ops : list (arr K)) : (forall x, o = Some x -> letters x) ->
    replace_signs K (tail o) j ops = Ok (tail o, ops).
  Proof.
    intros Ho. destruct o as [o|]; [|reflexivity]. specialize (Ho o eq_refl).
    assert (H := @replace_letters o [] j ops ([], ops) Ho eq_refl). rewrite app_nil_r in H.
    cbn [tail]. cbn -[replace_signs Nat.eqb]. 
    change (replace_signs K (ch_minus :: ch_gt :: o) j ops) with
      (bind (bind (replace_signs K o j ops) (fun r => Ok (ch_gt :: fst r, snd r))) (fun r => Ok (ch_minus :: fst r, snd r))).
    rewrite H. cbn [bind fst snd]. rewrite app_nil_r. reflexivity.
  Qed.

  Lemma replace_body seps o j (ops : list (arr K)) :
    (forall t, In t seps -> letters (snd t) /\ snd t <> [] /\ In (fst t) [ch_comma; ch_plus; ch_minus]) ->
    (forall x, o = Some x -> letters x) ->
    j + length seps <= length ops ->
    replace_signs K (body seps ++ tail o) j ops = Ok (commas seps ++ tail o, apply_signs seps j ops).
  Proof.
    revert j ops. induction seps as [|(c, g) seps IH]; intros j ops Hs Ho Hl.
    - cbn [body commas flat_map app apply_signs]. apply replace_tail, Ho.
    - destruct (Hs (c, g) (or_introl eq_refl)) as (Hg & Hne & Hc). cbn [fst snd] in Hg, Hne, Hc. cbn [length] in Hl.
      change (body ((c, g) :: seps)) with (c :: g ++ body seps).
      change (commas ((c, g) :: seps)) with (ch_comma :: g ++ commas seps). cbn [apply_signs].
      cbn [app]. rewrite <- !app_assoc.
      assert (Hs' : forall t, In t seps -> letters (snd t) /\ snd t <> [] /\ In (fst t) [ch_comma; ch_plus; ch_minus])
        by (intros t Ht; apply Hs; right; exact Ht).
      destruct Hc as [<-|[<-|[<-|[]]]].
      + cbn [replace_signs Nat.eqb ch_comma ch_plus ch_minus].
        rewrite (@replace_letters g _ _ _ _ Hg (IH (S j) ops Hs' Ho ltac:(lia))). reflexivity.
      + cbn [replace_signs Nat.eqb ch_comma ch_plus ch_minus].
        rewrite (@replace_letters g _ _ _ _ Hg (IH (S j) ops Hs' Ho ltac:(lia))). reflexivity.
      + destruct (nth_error ops j) as [a|] eqn:E.
        2:{ apply nth_error_None in E. lia. }
        cbn [Nat.eqb ch_minus].
        assert (HR := @replace_letters g _ _ _ _ Hg (IH (S j) (lupd j (arr_neg K a) ops) Hs' Ho ltac:(rewrite lupd_length; lia))).
        destruct g as [|d g]; [contradiction|]. cbn [app] in *.
        cbn [replace_signs]. cbn [Nat.eqb ch_comma ch_plus ch_minus].
        rewrite (letter_not d ch_gt) by (try reflexivity; apply Hg; left; reflexivity).
        rewrite E. cbn [replace_signs] in HR. rewrite HR. reflexivity.
  Qed.

  Definition neg_if (c : nat) (a : arr K) : arr K := if c =? ch_minus then arr_neg K a else a.
  Lemma apply_signs_spec seps pre ops : length ops = length seps ->
    apply_signs seps (length pre) (pre ++ ops) = pre ++ map (fun p => neg_if (fst (fst p)) (snd p)) (combine seps ops).
  Proof.
    revert pre ops. induction seps as [|(c, g) seps IH]; intros pre [|a ops] HL; cbn in HL; try discriminate; [reflexivity|].
    cbn [apply_signs combine map fst snd].
    assert (E : (if c =? ch_minus then match nth_error (pre ++ a :: ops) (length pre) with
                   | Some a0 => lupd (length pre) (arr_neg K a0) (pre ++ a :: ops) | None => pre ++ a :: ops end
                 else pre ++ a :: ops) = (pre ++ [neg_if c a]) ++ ops).
    { rewrite <- app_assoc. cbn [app]. unfold neg_if. destruct (c =? ch_minus); [|reflexivity].
      rewrite nth_error_app2, Nat.sub_diag by lia. cbn [nth_error].
      clear. induction pre as [|x pre IH]; cbn; [reflexivity|]. f_equal. exact IH. }
    rewrite E. replace (S (length pre)) with (length (pre ++ [neg_if c a])) by (rewrite app_length; cbn; lia).
    rewrite IH by congruence. rewrite <- app_assoc. reflexivity.
  Qed.

  (** Splitting. *)
  Lemma split_comma_letters s rest : letters s ->
    split_comma (s ++ rest) = match split_comma rest with h :: t => (s ++ h) :: t | [] => [s] end.
  Proof.
    intros Hs. induction s as [|c s IH]; cbn [app split_comma].
    - destruct (split_comma rest) eqn:E; [|reflexivity]. exfalso. destruct rest as [|d rest]; [discriminate|].
      cbn in E. destruct (d =? ch_comma); [discriminate|]. destruct (split_comma rest); discriminate.
    - rewrite (letter_not c ch_comma) by (try reflexivity; apply Hs; left; reflexivity).
      rewrite IH by (intros x Hx; apply Hs; right; exact Hx). destruct (split_comma rest); reflexivity.
  Qed.

  Lemma split_commas f seps : letters f -> (forall t, In t seps -> letters (snd t)) ->
    split_comma (f ++ commas seps) = f :: map snd seps.
  Proof.
    revert f. induction seps as [|(c, g) seps IH]; intros f Hf Hs; cbn [commas flat_map map].
    - rewrite split_comma_letters by exact Hf. cbn. rewrite app_nil_r. reflexivity.
    - rewrite split_comma_letters by exact Hf. cbn [app split_comma fst snd]. rewrite Nat.eqb_refl.
      fold (commas seps). rewrite IH; [rewrite app_nil_r; reflexivity|apply (Hs (c, g)); left; reflexivity|].
      intros t Ht; apply Hs; right; exact Ht.
  Qed.

  Definition plain (s : pystr) : Prop := forall c, In c s -> c <> ch_minus /\ c <> ch_gt.

  Lemma split_arrow_none s : plain s -> split_arrow s = None.
  Proof.
    induction s as [|c s IH]; intros H; cbn [split_arrow]; [reflexivity|].
    destruct s as [|d s]; [reflexivity|].
    destruct (Nat.eqb_spec c ch_minus) as [E|]; [exfalso; apply (proj1 (H c (or_introl eq_refl)) E)|]. cbn [andb].
    rewrite IH; [reflexivity|]. intros x Hx; apply H; right; exact Hx.
  Qed.
  Lemma split_arrow_some s o : plain s -> split_arrow (s ++ ch_minus :: ch_gt :: o) = Some (s, o).
  Proof.
    induction s as [|c s IH]; intros H; [reflexivity|].
    cbn [app split_arrow].
    destruct (s ++ ch_minus :: ch_gt :: o) as [|d s'] eqn:E; [destruct s; discriminate|].
    destruct (Nat.eqb_spec c ch_minus) as [E1|]; [exfalso; apply (proj1 (H c (or_introl eq_refl)) E1)|]. cbn [andb].
    rewrite IH by (intros x Hx; apply H; right; exact Hx). reflexivity.
  Qed.
  Lemma count_arrow_some s o : plain s -> plain o -> count_arrow (s ++ ch_minus :: ch_gt :: o) = 1.
  Proof.
    intros H Ho. induction s as [|c s IH].
    - cbn [app]. change (count_arrow (ch_minus :: ch_gt :: o)) with (1 + count_arrow (ch_gt :: o)).
      assert (X : forall s, plain s -> count_arrow (ch_gt :: s) = 0 /\ count_arrow s = 0).
      { clear. induction s as [|c s IH]; intros H; [split; reflexivity|].
        assert (H' : plain s) by (intros x Hx; apply H; right; exact Hx).
        destruct (IH H') as [_ I].
        assert (J : count_arrow (c :: s) = 0).
        { destruct s as [|d s]; [reflexivity|]. cbn [count_arrow].
          destruct (Nat.eqb_spec c ch_minus) as [E|]; [exfalso; apply (proj1 (H c (or_introl eq_refl)) E)|]. exact I. }
        split; [|exact J]. change (count_arrow (ch_gt :: c :: s)) with (0 + count_arrow (c :: s)). rewrite J. reflexivity. }
      rewrite (proj1 (X o Ho)). reflexivity.
    - cbn [app]. destruct (s ++ ch_minus :: ch_gt :: o) as [|d s'] eqn:E; [destruct s; discriminate|].
      cbn [count_arrow].
      destruct (Nat.eqb_spec c ch_minus) as [E1|]; [exfalso; apply (proj1 (H c (or_introl eq_refl)) E1)|].
      apply IH. intros x Hx; apply H; right; exact Hx.
  Qed.
End Parse.

Lemma remove_char_id c s : ~ In c s -> remove_char c s = s.
Proof. apply filter_neq_notin. Qed.

Lemma letter_facts c : is_letter c = true ->
  c <> ch_comma /\ c <> ch_plus /\ c <> ch_minus /\ c <> ch_gt /\ c <> ch_space /\ c <> ch_dot.
Proof. intros H. repeat split; intros ->; discriminate H. Qed.

Lemma commas_in seps c : In c (commas seps) -> c = ch_comma \/ exists t, In t seps /\ In c (snd t).
Proof.
  unfold commas. rewrite in_flat_map. intros (t & Ht & [H|H]); [left; symmetry; exact H|right; eauto].
Qed.

Lemma remove_commas f seps : letters f -> (forall t, In t seps -> letters (snd t)) ->
  remove_char ch_comma (f ++ commas seps) = concat (f :: map snd seps).
Proof.
  revert f. induction seps as [|(c, g) seps IH]; intros f Hf Hs.
  - cbn [commas flat_map map concat]. rewrite app_nil_r. apply remove_char_id.
    intros H. apply Hf in H. discriminate.
  - unfold remove_char. rewrite filter_app. fold (remove_char ch_comma f).
    rewrite remove_char_id by (intros H; apply Hf in H; discriminate).
    change (commas ((c, g) :: seps)) with ([ch_comma] ++ g ++ commas seps).
    rewrite filter_app. cbn [filter Nat.eqb ch_comma negb app].
    fold (remove_char ch_comma (g ++ commas seps)).
    rewrite IH; [reflexivity|apply (Hs (c, g)); left; reflexivity|intros t Ht; apply Hs; right; exact Ht].
Qed.

Section Render.
  Variable K : rng.

  Definition signed_ops (s : subscript) (ops : list (arr K)) : list (arr K) :=
    match ops with
    | [] => []
    | a :: ops' => a :: map (fun p => neg_if K (fst (fst p)) (snd p)) (combine (others s) ops')
    end.

  Lemma sorted_filter (f : nat -> bool) l : StronglySorted le l -> NoDup l -> StronglySorted lt (filter f l).
  Proof.
    intros H. induction H as [|x l Hs IH Hx]; intros Hnd; cbn [filter]; [constructor|].
    inversion Hnd as [|? ? Hn Hnd']; subst.
    destruct (f x); [|apply IH, Hnd']. constructor; [apply IH, Hnd'|].
    apply Forall_forall. intros y Hy. apply filter_In in Hy as [Hy _].
    rewrite Forall_forall in Hx. specialize (Hx y Hy). assert (x <> y) by (intros ->; contradiction). lia.
  Qed.

  Lemma sorted_lt_unique l1 l2 : StronglySorted lt l1 -> StronglySorted lt l2 ->
    (forall x : nat, In x l1 <-> In x l2) -> l1 = l2.
  Proof.
    intros H1; revert l2; induction H1 as [|x l1 H1 IH Hx]; intros l2 H2 Heq.
    - destruct l2 as [|y l2]; [reflexivity|]. exfalso. apply (Heq y). left; reflexivity.
    - inversion H2 as [|y l2' H2' Hy]; subst; [exfalso; apply (Heq x); left; reflexivity|].
      rewrite Forall_forall in Hx, Hy.
      assert (x = y).
      { destruct (proj1 (Heq x) (or_introl eq_refl)) as [E|E]; [congruence|].
        destruct (proj2 (Heq y) (or_introl eq_refl)) as [E'|E']; [congruence|].
        specialize (Hy _ E). specialize (Hx _ E'). lia. }
      subst y. f_equal. apply IH; [exact H2'|]. intros z. split; intros Hz.
      + destruct (proj1 (Heq z) (or_intror Hz)) as [E|E]; [|exact E]. specialize (Hx _ Hz). lia.
      + destruct (proj2 (Heq z) (or_intror Hz)) as [E|E]; [|exact E]. specialize (Hy _ Hz). lia.
  Qed.

  (** Everything but the final validation of the output letters. *)
  Definition candidate (s : subscript) (o : pystr) : Prop :=
    match output s with
    | Some o' => o = o'
    | None => StronglySorted lt o /\ forall c, In c o <-> count (concat (groups_of s)) c = 1
    end.

  Lemma parse_render_gen s (ops : list (arr K)) outs : well_formed s -> length ops = S (length (others s)) ->
    candidate s outs ->
    exists inp, parse_einsum K (render s) ops =
        (if forallb (fun c => count outs c =? 1) outs && forallb (fun c => memb c inp) outs
         then Ok (inp, outs, signed_ops s ops) else Err ValueError) /\
      split_comma inp = groups_of s /\ concat (groups_of s) = remove_char ch_comma inp.
  Proof.
    intros (Hf1 & Hf2 & Hs & Ho) HL Hout.
    set (f := first s) in *. set (seps := others s) in *. set (o := output s) in *.
    assert (Hl : forall t, In t seps -> letters (snd t)) by (intros t Ht; apply Hs, Ht).
    unfold candidate in Hout. fold o in Hout.
    exists (f ++ commas seps).
    split; [|split; [unfold groups_of; fold f seps; apply split_commas; assumption|unfold groups_of; fold f seps; symmetry; apply remove_commas; assumption]].
    unfold parse_einsum.
    assert (Hsp : remove_char ch_space (render s) = render s).
    { apply remove_char_id. unfold render. fold f seps o. rewrite !in_app_iff, in_flat_map.
      intros [H|[(t & Ht & [H|H])|H]].
      - apply Hf2 in H. discriminate.
      - destruct (Hs t Ht) as (_ & _ & Hc). destruct Hc as [Hc|[Hc|[Hc|[]]]]; pose proof (eq_trans Hc H) as X; discriminate X.
      - apply (Hl t Ht) in H. discriminate.
      - destruct o as [x|]; [|destruct H]. destruct H as [H|[H|H]]; try discriminate. apply (Ho x eq_refl) in H. discriminate. }
    rewrite Hsp.
    assert (Er : render s = f ++ body seps ++ tail o) by reflexivity.
    destruct (render s) as [|c0 rs] eqn:Ers; [destruct f; [contradiction|discriminate]|].
    assert (Hc0 : is_letter c0 = true).
    { destruct f as [|x f']; [contradiction|]. injection Er as <- _. apply Hf2. left; reflexivity. }
    assert (Hj : memb c0 [ch_plus; ch_minus] = false).
    { apply memb_false. pose proof (@letter_facts _ Hc0) as HH. intros [E|[E|[]]]; subst; destruct HH as (_ & ? & ? & _); congruence. }
    rewrite Hj, Er.
    destruct ops as [|a ops]; [discriminate|]. injection HL as HL.
    assert (Hrep : replace_signs K (f ++ body seps ++ tail o) 1 (a :: ops) =
                   Ok (f ++ commas seps ++ tail o, signed_ops s (a :: ops))).
    { rewrite (@replace_letters K f _ 1 (a :: ops) _ Hf2 (@replace_body K seps o 1 (a :: ops) Hs Ho ltac:(cbn [length]; rewrite HL; unfold seps; lia))).
      cbn [fst snd]. f_equal. f_equal.
      apply (@apply_signs_spec K seps [a] ops HL). }
    rewrite Hrep. cbn [bind]. clear Hrep Er Ers Hc0 Hj Hsp.
    assert (Hvalid : forall c, In c (f ++ commas seps) -> c = ch_comma \/ is_letter c = true).
    { intros c Hc. apply in_app_or in Hc as [Hc|Hc]; [right; apply Hf2, Hc|].
      apply commas_in in Hc as [Hc|(t & Ht & Hc)]; [left; exact Hc|right; apply (Hl t Ht c Hc)]. }
    assert (Hplain : plain (f ++ commas seps)).
    { intros c Hc. apply Hvalid in Hc as [->|Hc]; [split; discriminate|]. apply letter_facts in Hc. tauto. }
    assert (Hv : forallb valid_char (f ++ commas seps ++ tail o) = true).
    { rewrite app_assoc. apply forallb_forall. intros c Hc. apply in_app_or in Hc as [Hc|Hc].
      - apply Hvalid in Hc as [->|Hc]; [reflexivity|]. unfold valid_char. rewrite Hc. apply orb_true_r.
      - destruct o as [x|]; [|destruct Hc]. destruct Hc as [<-|[<-|Hc]]; try reflexivity.
        unfold valid_char. rewrite (Ho x eq_refl c Hc). apply orb_true_r. }
    rewrite Hv. cbn [negb]. rewrite app_assoc.
    set (inp := f ++ commas seps) in *.
    assert (Hcat : concat (groups_of s) = remove_char ch_comma inp)
      by (unfold inp; symmetry; apply remove_commas; assumption).
    assert (Hnodot : ~ In ch_dot inp) by (intros H; apply Hvalid in H as [H|H]; discriminate).
    destruct o as [x|]; cbn [tail].
    - assert (Hx : letters x) by (apply Ho; reflexivity).
      assert (Hpx : plain x) by (intros c Hc; apply Hx in Hc; apply letter_facts in Hc; tauto).
      unfold count at 1 2. rewrite !count_occ_app. cbn [count_occ].
      assert (Hz : forall c l, plain l -> c = ch_minus \/ c = ch_gt -> count_occ Nat.eq_dec l c = 0).
      { intros c l Hp Hc. apply count_occ_not_In. intros H. apply Hp in H. destruct Hc; subst; tauto. }
      rewrite !(Hz ch_minus), !(Hz ch_gt) by (assumption || tauto).
      rewrite count_arrow_some by assumption.
      destruct (Nat.eq_dec ch_minus ch_minus) as [_|]; [|contradiction].
      destruct (Nat.eq_dec ch_gt ch_minus) as [E|_]; [discriminate|].
      destruct (Nat.eq_dec ch_gt ch_gt) as [_|]; [|contradiction].
      destruct (Nat.eq_dec ch_minus ch_gt) as [E|_]; [discriminate|].
      cbn [Nat.add Nat.leb Nat.eqb andb negb]. rewrite andb_false_r.
      assert (Hd : memb ch_dot (inp ++ ch_minus :: ch_gt :: x) = false).
      { apply memb_false. intros H. apply in_app_or in H as [H|[H|[H|H]]]; try discriminate; [contradiction|].
        apply Hx in H. discriminate. }
      rewrite Hd, split_arrow_some by exact Hplain. cbn [bind].
      subst x. reflexivity.
    - rewrite app_nil_r.
      assert (H1 : memb ch_minus inp = false) by (apply memb_false; intros H; apply Hplain in H; tauto).
      assert (H2 : memb ch_gt inp = false) by (apply memb_false; intros H; apply Hplain in H; tauto).
      rewrite H1, H2. cbn [orb andb].
      assert (Hd : memb ch_dot inp = false) by (apply memb_false, Hnodot). rewrite Hd.
      rewrite split_arrow_none by exact Hplain. unfold implicit_output. rewrite <- Hcat.
      assert (Hall : forallb is_letter (sorted_py (dedup (concat (groups_of s)))) = true).
      { apply forallb_forall. intros c Hc. apply (Permutation_in c (Permutation_sym (sorted_py_perm _))) in Hc.
        rewrite dedup_in, Hcat in Hc. apply filter_In in Hc as [Hc Hn]. apply Hvalid in Hc as [->|Hc]; [discriminate|exact Hc]. }
      rewrite Hall. cbn [bind].
      assert (Eo : filter (fun c => count (concat (groups_of s)) c =? 1) (sorted_py (dedup (concat (groups_of s)))) = outs).
      { destruct Hout as [S1 S2].
        apply sorted_lt_unique; [|exact S1|].
        - apply sorted_filter; [apply sorted_py_sorted|]. apply (Permutation_NoDup (sorted_py_perm _)), dedup_nodup.
        - intros c. rewrite filter_In, Nat.eqb_eq, S2. split; [tauto|]. intros H. split; [|exact H].
          apply (Permutation_in c (sorted_py_perm _)). apply dedup_in. apply (count_occ_In Nat.eq_dec). unfold count in H. lia. }
      rewrite Eo. reflexivity.
  Qed.

  Lemma parse_render s (ops : list (arr K)) outs : well_formed s -> length ops = S (length (others s)) ->
    output_letters s outs ->
    exists inp, parse_einsum K (render s) ops = Ok (inp, outs, signed_ops s ops) /\ split_comma inp = groups_of s.
  Proof.
    intros Hw HL Hout.
    destruct (@parse_render_gen s ops outs Hw HL) as (inp & Ep & Esp & Hcat).
    { unfold candidate, output_letters in *. destruct (output s); tauto. }
    exists inp. split; [|exact Esp]. rewrite Ep.
    assert (NoDup outs /\ incl outs inp) as [Hnd Hinc].
    { unfold output_letters in Hout. destruct (output s) as [x|].
      - destruct Hout as (_ & H1 & H2). split; [exact H1|]. intros c Hc. apply H2 in Hc. rewrite Hcat in Hc.
        apply filter_In in Hc. tauto.
      - destruct Hout as [H1 H2]. split.
        + clear -H1. induction H1 as [|x l H IH Hx]; constructor; [|exact IH]. rewrite Forall_forall in Hx.
          intros Hi. specialize (Hx _ Hi). lia.
        + intros c Hc. apply H2 in Hc. rewrite Hcat in Hc.
          assert (Hin : In c (remove_char ch_comma inp)) by (apply (count_occ_In Nat.eq_dec); unfold count in Hc; lia).
          apply filter_In in Hin. tauto. }
    assert (E : forallb (fun c => count outs c =? 1) outs && forallb (fun c => memb c inp) outs = true).
    { rewrite andb_true_iff, !forallb_forall. split.
      - intros c Hc. rewrite nodup_count by exact Hnd. apply memb_in in Hc. rewrite Hc. reflexivity.
      - intros c Hc. apply memb_in, Hinc, Hc. }
    rewrite E. reflexivity.
  Qed.

  Lemma parse_refuses s (ops : list (arr K)) o : well_formed s -> length ops = S (length (others s)) ->
    output s = Some o -> ~ (NoDup o /\ incl o (concat (groups_of s))) ->
    parse_einsum K (render s) ops = Err ValueError.
  Proof.
    intros Hw HL Ho Hn.
    destruct (@parse_render_gen s ops o Hw HL) as (inp & Ep & Esp & Hcat); [unfold candidate; rewrite Ho; reflexivity|].
    rewrite Ep. destruct (forallb _ o && forallb _ o) eqn:E; [|reflexivity]. exfalso. apply Hn.
    rewrite andb_true_iff, !forallb_forall in E. destruct E as [E1 E2]. split.
    - apply count_nodup. intros c Hc. apply Nat.eqb_eq, E1, Hc.
    - intros c Hc. rewrite Hcat. apply filter_In. split; [apply memb_in, E2, Hc|].
      destruct Hw as (_ & _ & _ & Hl). pose proof (Hl o Ho c Hc) as Hx. apply negb_true_iff.
      apply letter_not; [exact Hx|reflexivity].
  Qed.
End Render.
