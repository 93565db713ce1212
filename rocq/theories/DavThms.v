(** Invariants of the Davidson iterations. *)
From Coq Require Import List Arith Bool Lia Permutation Ring Field.
From Verif Require Import Base ListAux Alg ArrProofs DavModel DavSpec DavProofs AnsatzRanks KernelProofs.
Import ListNotations.
Set Implicit Arguments.
Local Open Scope nat_scope.

Section Dav.
  Variable F : fld.
  Local Notation vec := (list F).
  Local Notation cplx := (F * F)%type.
  Add Field FfieldDavT : (fth F).
  Variable ltb : F -> F -> bool.
  Variable norm : vec -> F.
  Variable matvec : vec -> vec.
  Variable eig : list vec -> list cplx * list (list cplx).
  Variable pick : list cplx -> list (list cplx) -> nat -> list vec -> result (list F * list vec * list nat).
  Variables (diag : vec) (nroots max_space max_trials : nat) (e_tol loose_tol lindep_tol ptol level_shift : F).
  Local Notation n := (length diag).
  Hypothesis Hnorm : is_norm n norm.
  Hypothesis Htol : ltb lindep_tol r0 = false.
  Hypothesis Hmat : forall v, length v = n -> length (matvec v) = n.
  Local Notation cyc := (cycle (F := F) ltb norm matvec eig pick diag nroots max_space max_trials e_tol loose_tol lindep_tol ptol level_shift).
  Local Notation full := (full_space nroots max_space).
  Local Notation cap := (capacity nroots max_space).

  Section Bound.
    Variable B : nat.
    Hypothesis HB : nroots <= B.
    Definition sized (l : list vec) : Prop := Forall (fun x => length x = n) l.
    Definition facts (s : state F) : Prop :=
      length (basis s) = space s /\ mbasis s = map matvec (basis s) /\ osn F n (basis s) /\ represents n matvec (basis s) (sub s) /\
      space s <= Nat.max full B /\ sized (vectors s) /\ length (vectors s) <= nroots /\ length (v_of s) <= nroots.
    Definition good (s : state F) : Prop :=
      length (v_of s) <= nroots /\
      if restart s then sized (vectors s) /\ length (vectors s) <= B
      else length (basis s) = space s /\ mbasis s = map matvec (basis s) /\ osn F n (basis s) /\ represents n matvec (basis s) (sub s) /\ space s + nroots <= full /\
           Forall (fun x => (length x = n /\ inner n x x = r1) /\ orth_to F n (basis s) x) (trial s) /\ length (trial s) <= nroots.

    Lemma combine_sized c (b : list vec) x : sized b -> combine_rows F n c b = Ok x -> length x = n.
    Proof.
      intros Hb E. unfold combine_rows in E. destruct (length c =? length b); [|discriminate]. apply ok_inj in E. subst x.
      revert c. induction b as [|y b IH]; intros [|z c]; cbn [zip2 fold_right]; try apply repeat_length. inversion Hb; subst.
      apply add_length; [rewrite scale_length; assumption|apply IH; assumption].
    Qed.
    Lemma outer_sized v (b xs : list vec) : sized b -> outer F n v b = Ok xs -> sized xs /\ length xs = length v.
    Proof.
      intros Hb E. unfold outer in E. split; [|apply (mapM_length _ _ E)]. apply Forall_forall. intros x Hx. destruct (In_nth _ _ [] Hx) as (k & Hk & <-).
      rewrite (mapM_length _ _ E) in Hk. pose proof (@mapM_nth _ _ _ [] [] _ _ k E Hk) as Ek; cbn beta in Ek. apply (combine_sized _ Hb Ek).
    Qed.
    Lemma sized_map (b : list vec) : sized b -> sized (map matvec b).
    Proof. intros H. apply Forall_map. unfold sized in H. rewrite Forall_forall in *. intros x Hx. apply Hmat, H, Hx. Qed.
    Lemma resid_sized : forall (ms : list vec) w xs, sized ms -> sized xs -> sized (zip2 (vsub F) ms (zip2 (scale F) w xs)).
    Proof.
      induction ms as [|m ms IH]; intros [|a w] [|x xs] H1 H2; cbn; try constructor; inversion H1; inversion H2; subst; [|apply IH; assumption].
      apply sub_length; [assumption|rewrite scale_length; assumption].
    Qed.
    Lemma osn_sized (b : list vec) : osn F n b -> sized b.
    Proof. intros [U _]. rewrite Forall_forall in U. apply Forall_forall. intros x Hx. apply U, Hx. Qed.

    (** The trial vectors of a cycle. *)
    Lemma trials_ok s t : good s ->
      (if restart s then orthonormalise F ltb norm lindep_tol (vectors s)
       else if 1 <? length (trial s) then (t <- orthonormalise F ltb norm lindep_tol (trial s) ;; Ok (firstn max_trials t))%py else Ok (trial s)) = Ok t ->
      osn F n ((if restart s then [] else basis s) ++ t) /\ length ((if restart s then [] else basis s) ++ t) <= Nat.max full B /\
      (restart s = true -> length t <= length (vectors s)).
    Proof.
      intros [_ G] E. destruct (restart s).
      - destruct G as [Gs Gl]. destruct (@orthonormalise_ok F n norm ltb lindep_tol Hnorm Htol [] (vectors s) t) as (A & _ & C & _); [|exact E|cbn; split; [exact A|split; [lia|intros _; exact C]]].
        rewrite Forall_forall. intros x Hx. unfold sized in Gs. rewrite Forall_forall in Gs. split; [apply Gs, Hx|intros b []].
      - destruct G as (Gb & _ & Go & _ & Gf & Gt & Gl). assert (T : osn F n t /\ (forall x, In x t -> orth_to F n (basis s) x) /\ length t <= length (trial s)).
        { destruct (1 <? length (trial s)) eqn:E1.
          - apply bind_ok in E as (t' & E2 & E3). apply ok_inj in E3. subst t.
            destruct (@orthonormalise_ok F n norm ltb lindep_tol Hnorm Htol (basis s) (trial s) t') as (A & B' & C & _); [|exact E2|].
            + rewrite Forall_forall in *. intros x Hx. split; [apply Gt, Hx|apply Gt, Hx].
            + split; [apply osn_firstn, A|]. split; [intros x Hx; apply B'; rewrite <- (firstn_skipn max_trials t'); apply in_or_app; left; exact Hx|].
              rewrite firstn_length. lia.
          - apply ok_inj in E. subst t. apply Nat.ltb_ge in E1. rewrite Forall_forall in Gt. split; [|split; [intros x Hx; apply Gt, Hx|lia]].
            destruct (trial s) as [|x [|y l]]; [apply osn_nil| |cbn in E1; lia]. split; [constructor; [apply Gt; left; reflexivity|constructor]|constructor; constructor]. }
        destruct T as (T1 & T2 & T3). split; [apply osn_app; [exact Go|exact T1|]|split; [rewrite app_length; lia|discriminate]]. intros x y Hx Hy. apply T2; assumption.
    Qed.

    Lemma cycle_step fs s o : good s -> cyc fs s = Ok o -> facts (state_of o) /\ (forall s', o = Continue s' -> good s').
    Proof.
      intros G E. unfold cycle in E. apply bind_ok in E as (t & Et & E). destruct (trials_ok G Et) as (Ob & Lb & _).
      apply bind_ok in E as (mt & Emt & E). assert (Hmt : mt = map matvec t) by (destruct t; [discriminate|]; apply ok_inj in Emt; symmetry; exact Emt). subst mt. clear Emt Et.
      set (b0 := if restart s then [] else basis s) in *. set (b := b0 ++ t) in *.
      assert (Em : (if restart s then [] else mbasis s) = map matvec b0). { unfold b0. destruct G as [_ G]. destruct (restart s); [reflexivity|]. apply G. }
      rewrite Em in E. assert (Rep : represents n matvec b0 (sub s)). { unfold b0. destruct G as [_ G]. destruct (restart s); [intros i j Hi; cbn in Hi; lia|]. apply G. }
      assert (Esp : (if restart s then 0 else space s) + length t = length b). { unfold b, b0. destruct G as [_ G]. rewrite app_length. destruct (restart s); [reflexivity|]. destruct G as [-> _]. reflexivity. }
      rewrite Esp in E. apply bind_ok in E as (m & Em' & E). pose proof (osn_sized Ob) as Sb. unfold sized in Sb.
      assert (Rm : represents n matvec b m). { apply (@fill_ok F n matvec cap (sub s) m b0 t); try assumption. rewrite Forall_forall in Sb. exact Sb. }
      rewrite <- map_app in E. fold b in E.
      destruct (eig (square m (length b))) as [ew ev] eqn:Ee. apply bind_ok in E as ([[w v] idx] & Ep & E). destruct w as [|w0 w']; [discriminate|].
      set (w := firstn nroots (w0 :: w')) in *. set (v1 := firstn nroots v) in *. assert (Lv : length v1 <= nroots) by (unfold v1; rewrite firstn_length; lia).
      apply bind_ok in E as (vecs & Ev & E). apply bind_ok in E as (mvecs & Emv & E).
      destruct (outer_sized _ Sb Ev) as [Sv Lvecs]. destruct (outer_sized _ (sized_map Sb) Emv) as [Smv Lmv].
      destruct (negb (length w =? length v1)); [discriminate|].
      set (resid := zip2 (vsub F) mvecs (zip2 (scale F) w vecs)) in *. assert (Sr : sized resid) by (apply resid_sized; assumption).
      assert (Lr : length resid <= nroots) by (unfold resid; rewrite zip2_min; lia). clearbody resid. cbn beta zeta in E.
      set (conv := zip2 _ _ (map norm resid)) in *. clearbody conv.
      destruct (forallb (fun c => c) conv).
      { apply ok_inj in E. subst o. split; [|discriminate]. cbn [state_of]. repeat split; cbn; try assumption; try apply Ob; lia. }
      destruct (fs && existsb (ltb r1) (map norm resid) && (nroots + 4 <? length b)).
      { apply bind_ok in E as (back & Eb & E). apply ok_inj in E. subst o. destruct (outer_sized _ Sb Eb) as [Sback Lback]. destruct G as [Gv _]. split.
        - cbn [state_of]. repeat split; cbn; try assumption; try apply Ob; lia.
        - intros s' Es. injection Es as <-. split; [exact Lv|]. cbn. split; [exact Sback|lia]. }
      set (pre := project F _ b) in *. assert (Hpre : Forall (fun x => length x = n /\ orth_to F n b x) pre /\ length pre <= nroots).
      { split; [|unfold pre, project; rewrite !map_length; exact Lr]. apply Forall_forall. intros x Hx. unfold pre, project in Hx. apply in_map_iff in Hx. destruct Hx as (y & <- & Hy).
        apply project_ok; [exact Ob|]. apply in_map_iff in Hy. destruct Hy as (r & <- & Hr). unfold precondition. apply zip2_length; [|rewrite map_length; reflexivity].
        unfold sized in Sr. rewrite Forall_forall in Sr. apply Sr, Hr. }
      destruct Hpre as [Hpre Lpre]. clearbody pre. destruct (@normalise_ok F n norm ltb lindep_tol Hnorm Htol b pre Hpre) as [Nt Lt]. set (tt := normalise F ltb norm lindep_tol pre) in *.
      destruct tt as [|t0 tl] eqn:Ett.
      { apply ok_inj in E. subst o. split; [|discriminate]. cbn [state_of]. repeat split; cbn; try assumption; try apply Ob; lia. }
      apply ok_inj in E. subst o. split; [cbn [state_of]; repeat split; cbn; try assumption; try apply Ob; lia|].
      intros s' Es. injection Es as <-. split; [exact Lv|]. cbn [restart basis mbasis space sub trial vectors].
      destruct (full <? length b + nroots) eqn:Ef; [split; [exact Sv|lia]|]. apply Nat.ltb_ge in Ef.
      split; [reflexivity|]. split; [reflexivity|]. split; [exact Ob|]. split; [exact Rm|]. split; [exact Ef|]. split; [exact Nt|cbn in *; lia].
    Qed.
    Lemma after_ok fs s0 o : good s0 -> after (cyc fs) s0 o -> facts (state_of o) /\ (forall s', o = Continue s' -> good s').
    Proof.
      intros G H. induction H as [o E|s o H IH E]; [apply (cycle_step fs G E)|]. destruct IH as [_ G']. apply (cycle_step fs (G' s eq_refl) E).
    Qed.
    Lemma no_overflow fs s : good s -> Nat.max full B <= cap -> (forall w v k b, pick w v k b <> Err IndexError) -> cyc fs s <> Err IndexError.
    Proof.
      intros G Hc Hp E. unfold cycle in E.
      assert (O1 : forall l, orthonormalise F ltb norm lindep_tol l <> Err IndexError) by (intros l X; unfold orthonormalise in X; destruct (fold_left _ _ _); discriminate).
      assert (O2 : forall v b, outer F n v b <> Err IndexError).
      { intros v b X. unfold outer in X. induction v as [|c v IH]; cbn in X; [discriminate|]. unfold combine_rows in X at 1. destruct (length c =? length b); [|discriminate].
        destruct (mapM _ v) eqn:Ev; [discriminate|]. apply IH. injection X as ->. reflexivity. }
      match type of E with bind ?x _ = _ => destruct x as [t|] eqn:Et end; cbn [bind] in E.
      2: { injection E as ->. destruct (restart s); [apply (O1 _ Et)|]. destruct (1 <? length (trial s)); [|discriminate]. destruct (orthonormalise _ _ _ _ (trial s)) eqn:E1; cbn [bind] in Et; [discriminate|].
           injection Et as ->. apply (O1 _ E1). }
      destruct (trials_ok G Et) as (Ob & Lb & _). destruct t as [|t0 tl] eqn:Ett; [discriminate|]. rewrite <- Ett in *. cbn [bind] in E.
      assert (Lm : length ((if restart s then [] else mbasis s) ++ map matvec t) <= cap).
      { rewrite app_length, map_length. rewrite app_length in Lb. destruct G as [_ G]. destruct (restart s); [cbn in *; lia|]. destruct G as (_ & -> & _). rewrite map_length. lia. }
      match type of E with bind ?x _ = _ => destruct x as [m|] eqn:Em end; cbn [bind] in E.
      2: { destruct (@fill_fits F cap (sub s) ((if restart s then [] else basis s) ++ t) _ t (map matvec t) Lm) as (m & Hm). rewrite Hm in Em. discriminate. }
      destruct (eig _) as [ew ev]. destruct (pick ew ev nroots _) as [[[w v] idx]|] eqn:Ep; cbn [bind] in E; [|injection E as ->; apply (Hp _ _ _ _ Ep)].
      destruct w as [|w0 w']; [discriminate|].
      match type of E with bind ?x _ = _ => destruct x as [vecs|] eqn:E3 end; cbn [bind] in E; [|injection E as ->; revert E3; apply O2].
      match type of E with bind ?x _ = _ => destruct x as [mvecs|] eqn:E4 end; cbn [bind] in E; [|injection E as ->; revert E4; apply O2].
      destruct (negb _); [discriminate|]. destruct (forallb _ _); [discriminate|]. destruct (fs && _ && _).
      - match type of E with bind ?x _ = _ => destruct x as [bk|] eqn:E5 end; cbn [bind] in E; [discriminate|]. injection E as ->. revert E5; apply O2.
      - destruct (normalise _ _ _ _ _); discriminate.
    Qed.
  End Bound.

  Lemma start_good junk guesses : sized guesses -> good (Nat.max (length guesses) nroots) (start nroots junk guesses).
  Proof. intros H. split; [cbn; lia|]. cbn. split; [exact H|lia]. Qed.

  Theorem invariants fs junk guesses o : Forall (fun x => length x = n) guesses -> after (cyc fs) (start nroots junk guesses) o ->
    let s := state_of o in
    length (basis s) = space s /\ space s <= Nat.max (Nat.max full nroots) (length guesses) /\ orthonormal_set n (basis s) /\ represents n matvec (basis s) (sub s).
  Proof.
    intros Hg H. destruct (@after_ok (Nat.max (length guesses) nroots) ltac:(lia) fs _ o (start_good junk Hg) H) as [(A & _ & C & D & E & _) _].
    cbn zeta. split; [exact A|]. split; [lia|]. split; [apply osn_set, C|exact D].
  Qed.
  Theorem never_overflows fs junk guesses s : Forall (fun x => length x = n) guesses -> length guesses <= cap ->
    (forall w v k b, pick w v k b <> Err IndexError) -> s = start nroots junk guesses \/ after (cyc fs) (start nroots junk guesses) (Continue s) ->
    cyc fs s <> Err IndexError.
  Proof.
    intros Hg Hl Hp Hs. apply (@no_overflow (Nat.max (length guesses) nroots)); [lia| |unfold capacity in *; lia|exact Hp].
    destruct Hs as [->|Hs]; [apply start_good, Hg|]. destruct (@after_ok (Nat.max (length guesses) nroots) ltac:(lia) fs _ _ (start_good junk Hg) Hs) as [_ G]. apply G. reflexivity.
  Qed.

  (** * Restarts that follow the state never happen. *)
  Hypothesis Hcols : forall b m w v idx, length m = length b -> pick (fst (eig m)) (snd (eig m)) nroots b = Ok (w, v, idx) ->
    length w = length v /\ forall c, In c v -> length c = length b.

  Definition cols_fit (s : state F) : Prop := (forall c, In c (v_of s) -> length c = space s) /\ (0 < nroots -> v_of s <> []).
  Lemma cycle_cols fs s o : good nroots s \/ (exists B, nroots <= B /\ good B s) -> cyc fs s = Ok o -> cols_fit (state_of o).
  Proof.
    intros G0 E. assert (exists B, nroots <= B /\ good B s) as (B & HB & G) by (destruct G0 as [G|G]; [exists nroots; split; [lia|exact G]|exact G]). clear G0.
    unfold cycle in E. apply bind_ok in E as (t & Et & E).
    apply bind_ok in E as (mt & Emt & E).
    set (b := (if restart s then [] else basis s) ++ t) in *.
    assert (Esp : (if restart s then 0 else space s) + length t = length b). { unfold b. destruct G as [_ G]. rewrite app_length. destruct (restart s); [reflexivity|]. destruct G as [-> _]. reflexivity. }
    rewrite Esp in E. apply bind_ok in E as (m & Em' & E).
    destruct (eig (square m (length b))) as [ew ev] eqn:Ee. apply bind_ok in E as ([[w v] idx] & Ep & E).
    destruct (@Hcols b (square m (length b)) w v idx) as [Hl Hc]; [unfold square; rewrite map_length, seq_length; reflexivity|rewrite Ee; exact Ep|].
    destruct w as [|w0 w']; [discriminate|].
    assert (R : forall c x y z, cols_fit (mks b ((if restart s then [] else mbasis s) ++ mt) (length b) m (firstn nroots (w0 :: w')) (firstn nroots v) c x y z)).
    { intros c x y z. split; cbn [v_of space].
      - intros k Hk. apply Hc. rewrite <- (firstn_skipn nroots v). apply in_or_app. left. exact Hk.
      - intros Hn X. apply (f_equal (@length _)) in X. rewrite firstn_length, <- Hl in X. cbn in X. lia. }
    apply bind_ok in E as (vecs & Ev & E). apply bind_ok in E as (mvecs & Emv & E). destruct (negb _); [discriminate|]. cbn beta zeta in E.
    destruct (forallb _ _); [apply ok_inj in E; subst o; apply R|]. destruct (fs && _ && _).
    - apply bind_ok in E as (back & Eb & E). apply ok_inj in E. subst o. apply R.
    - destruct (normalise _ _ _ _ _); apply ok_inj in E; subst o; apply R.
  Qed.
  Theorem follow_fails junk guesses s : 0 < nroots -> Forall (fun x => length x = n) guesses -> after (cyc true) (start nroots junk guesses) (Continue s) ->
    cyc true s = cyc false s \/ cyc true s = Err ValueError.
  Proof.
    intros Hn Hg H. set (B := Nat.max (length guesses) nroots).
    pose proof (@after_ok B ltac:(lia) true _ _ (start_good junk Hg) H) as [Fs Gs]. specialize (Gs s eq_refl).
    assert (Cs : cols_fit s).
    { inversion H as [o E1 E2|s1 o H1 E1 E2]; subst.
      - apply (@cycle_cols true (start nroots junk guesses) (Continue s)); [right; exists B; split; [lia|apply start_good, Hg]|exact E1].
      - apply (@cycle_cols true s1 (Continue s)); [right; exists B; split; [lia|]|exact E1].
        destruct (@after_ok B ltac:(lia) true _ _ (start_good junk Hg) H1) as [_ G1]. apply G1. reflexivity. }
    cbn [state_of] in Fs. destruct Fs as (Fb & _ & _ & _ & _ & _ & Fv & _). destruct Cs as [Cl Cn]. specialize (Cn Hn).
    unfold cycle. match goal with |- bind ?x _ = _ \/ _ => destruct x as [t|] eqn:Et end; cbn [bind]; [|left; reflexivity].
    assert (Lt : restart s = true -> length t <= nroots). { intros Er. destruct (@trials_ok B ltac:(lia) s t Gs Et) as (_ & _ & X). specialize (X Er). lia. }
    match goal with |- bind ?x _ = _ \/ _ => destruct x as [mt|] eqn:Emt end; cbn [bind]; [|left; reflexivity].
    assert (Nt : t <> []) by (destruct t; [discriminate|discriminate]).
    match goal with |- bind ?x _ = _ \/ _ => destruct x as [m|] end; cbn [bind]; [|left; reflexivity].
    destruct (eig _) as [ew ev]. destruct (pick ew ev nroots _) as [[[w v] idx]|]; cbn [bind]; [|left; reflexivity].
    destruct w as [|w0 w']; [left; reflexivity|].
    match goal with |- bind ?x _ = _ \/ _ => destruct x as [vecs|] end; cbn [bind]; [|left; reflexivity].
    match goal with |- bind ?x _ = _ \/ _ => destruct x as [mvecs|] end; cbn [bind]; [|left; reflexivity].
    destruct (negb _); [left; reflexivity|]. destruct (forallb _ _); [left; reflexivity|]. cbn [andb].
    destruct (existsb _ _ && _) eqn:Ex; [|left; reflexivity]. apply andb_prop in Ex. destruct Ex as [_ Ex]. apply Nat.ltb_lt in Ex. right.
    destruct (restart s) eqn:Er; [specialize (Lt eq_refl); cbn in Ex; lia|].
    unfold outer. destruct (v_of s) as [|c vs]; [contradiction|]. cbn [mapM]. unfold combine_rows at 1. rewrite (Cl c (or_introl eq_refl)), app_length, Fb.
    replace (space s =? space s + length t) with false; [reflexivity|]. symmetry. apply Nat.eqb_neq. destruct t; [contradiction|cbn; lia].
  Qed.
End Dav.
