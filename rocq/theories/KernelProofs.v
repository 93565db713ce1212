(** Proofs about the solver loops. *)
From Verif Require Import Base KernelModel KernelSpec.
Set Implicit Arguments.
Local Open Scope nat_scope.
Local Open Scope list_scope.

Lemma bind_ok A B (r : result A) (f : A -> result B) b : bind r f = Ok b -> exists a, r = Ok a /\ f a = Ok b.
Proof. destruct r; cbn; [eauto|discriminate]. Qed.
Lemma ok_inj A (a b : A) : Ok a = Ok b -> a = b.
Proof. intros [=]. assumption. Qed.

Definition scons {A} (a : A) (f : nat -> A) : nat -> A := fun n => match n with 0 => a | S m => f m end.

Section Runs.
  Variables (A V D : Type).
  Variables (step : D -> A -> D -> A -> V -> Prop) (met : A -> A -> V -> Prop).
  Lemma run_stop limit d a d' a' v : step d a d' a' v -> met a a' v -> stopped_run step met (S limit) 1 d a a' true.
  Proof.
    intros HS HM. exists (scons d (fun _ => d')), (scons a (fun _ => a')). cbv zeta.
    repeat apply conj; try reflexivity; try lia.
    - intros k Hk. replace k with 0 by lia. exists v. exact HS.
    - intros _. split; [lia|]. cbn. exists v. auto.
  Qed.
  Lemma run_zero d a : stopped_run step met 0 0 d a a false.
  Proof.
    exists (fun _ => d), (fun _ => a). cbv zeta. repeat apply conj; try reflexivity; try lia; try discriminate.
  Qed.
  Lemma run_more limit n d a d' a' v a'' flag : step d a d' a' v -> (forall v', step d a d' a' v' -> ~ met a a' v') ->
    stopped_run step met limit n d' a' a'' flag -> stopped_run step met (S limit) (S n) d a a'' flag.
  Proof.
    intros HS HM (ds & xs & Hd & Hx & Hn & Hlim & Hmade & Hnot & Hflag & Hlast). exists (scons d ds), (scons a xs). cbv zeta in *.
    repeat apply conj; try reflexivity; try lia.
    - exact Hn.
    - intros k Hk. destruct k as [|k]; cbn; [rewrite Hd, Hx; eauto|apply Hmade; lia].
    - intros k Hk. destruct k as [|k]; cbn; [rewrite Hd, Hx; intros (v' & H1 & H2); eapply HM; eauto|apply Hnot; lia].
    - intros F. apply Hflag in F as [Hpos F]. split; [lia|]. replace (S n - 1) with (S (n - 1)) by lia. cbn. replace (S (n - 1)) with n in * by lia. exact F.
    - intros [_ (v' & H1 & H2)]. replace (S n - 1) with n in * by lia. destruct n as [|n].
      + exfalso. cbn in H1, H2. rewrite Hd, Hx in H1. rewrite Hx in H2. eapply HM; eauto.
      + apply Hflag. split; [lia|]. replace (S n - 1) with n by lia. exists v'. auto.
    - intros F. rewrite (Hlast F). reflexivity.
  Qed.
End Runs.

Section Solver.
  Variables (A V D R : Type) (is_empty : A -> bool).
  Variables (ltb : R -> R -> bool) (absdiff : R -> R -> R) (plus : R -> R -> R) (dist : V -> V -> R).

  Section Ground.
    Variable init_amps : result A.
    Variable energy : A -> result R.
    Variable energy_perturbative : A -> result R.
    Variable update : A -> result A.
    Variables (to_vector : A -> result V) (of_vector : V -> result A).
    Variable damping : D -> V -> result (D * V).
    Variable damping0 : D.
    Variables (is_one_shot has_perturbative : bool).
    Variable o : options R.
    Local Notation step := (one_update update to_vector of_vector damping).
    Definition met a a' v := energy_met ltb absdiff energy (e_tol o) a a' /\ vector_met ltb dist to_vector (t_tol o) a v.
    Local Notation iter := (iterate ltb absdiff dist energy update to_vector of_vector damping o).

    Lemma step_fun d a d1 a1 v1 d2 a2 v2 : step d a d1 a1 v1 -> step d a d2 a2 v2 -> d1 = d2 /\ a1 = a2 /\ v1 = v2.
    Proof. intros (u & w & H1 & H2 & H3 & H4) (u' & w' & H1' & H2' & H3' & H4'). repeat split; congruence. Qed.

    Lemma iterate_run : forall fuel d a e a' e' flag, energy a = Ok e -> iter fuel d a e = Ok (a', e', flag) ->
      energy a' = Ok e' /\ exists n, stopped_run step met fuel n d a a' flag.
    Proof.
      induction fuel as [|fuel IH]; intros d a e a' e' flag He H; cbn [iterate] in H.
      - apply ok_inj in H. injection H as <- <- <-. split; [exact He|]. exists 0. apply run_zero.
      - apply bind_ok in H as (a1 & H1 & H). apply bind_ok in H as (v1 & H2 & H). apply bind_ok in H as ([d' v] & H3 & H). cbn [fst snd] in H.
        apply bind_ok in H as (a2 & H4 & H). apply bind_ok in H as (vp & H5 & H). apply bind_ok in H as (e2 & H6 & H).
        assert (HS : step d a d' a2 v) by (exists a1, v1; auto).
        destruct (_ && _) eqn:E.
        + apply ok_inj in H. injection H as <- <- <-. split; [exact H6|]. exists 1. apply andb_true_iff in E as [E1 E2].
          eapply run_stop; [exact HS|]. split; [exists e, e2; auto|exists vp; auto].
        + destruct (IH _ _ _ _ _ _ H6 H) as (HE & n & HR). split; [exact HE|]. exists (S n). eapply run_more; eauto.
          intros v' HS' [(e1 & e1' & X1 & X2 & X3) (w & Y1 & Y2)]. destruct (step_fun HS HS') as (_ & _ & <-).
          assert (e1 = e) by congruence. assert (e1' = e2) by congruence. assert (w = vp) by congruence. subst. rewrite X3, Y2 in E. discriminate.
    Qed.

    Local Notation kern := (kernel is_empty ltb absdiff plus dist init_amps energy energy_perturbative update to_vector of_vector damping damping0 is_one_shot has_perturbative o).
    Theorem kernel_flag s e s' : kern s = Ok (e, s') ->
      exists a0 e1, (if is_empty (amplitudes s) then init_amps = Ok a0 else a0 = amplitudes s) /\
        energy (amplitudes s') = Ok e1 /\ e_corr s' = e /\ lambdas s' = lambdas s /\ converged_lambda s' = converged_lambda s /\
        (if is_one_shot then amplitudes s' = a0 /\ converged s' = true /\ e = e1
         else (exists n, stopped_run step met (max_iter o) n damping0 a0 (amplitudes s') (converged s')) /\
              (if has_perturbative then exists p, energy_perturbative (amplitudes s') = Ok p /\ e = plus e1 p else e = e1)).
    Proof.
      unfold kernel. intros H. apply bind_ok in H as (a & Ha & H). apply bind_ok in H as (e0 & He & H). exists a.
      assert (HA : if is_empty (amplitudes s) then init_amps = Ok a else a = amplitudes s) by (destruct (is_empty _); [exact Ha|apply ok_inj in Ha; auto]).
      destruct is_one_shot.
      - apply ok_inj in H. injection H as <- <-. exists e0. cbn. auto 10.
      - apply bind_ok in H as ([[a' e'] c] & HI & H). cbv beta iota in H. apply bind_ok in H as (e'' & HP & H). apply ok_inj in H. injection H as <- <-.
        destruct (@iterate_run _ _ _ _ _ _ _ He HI) as (HE & HR). exists e'. cbn. repeat apply conj; auto.
        destruct has_perturbative; [|apply ok_inj in HP; auto]. apply bind_ok in HP as (p & HP & E). apply ok_inj in E. eauto.
    Qed.

    (** Restarting from amplitudes that the update leaves alone. *)
    Theorem kernel_restart s e v d1 : is_one_shot = false -> is_empty (amplitudes s) = false -> update (amplitudes s) = Ok (amplitudes s) ->
      to_vector (amplitudes s) = Ok v -> damping damping0 v = Ok (d1, v) -> of_vector v = Ok (amplitudes s) ->
      energy (amplitudes s) = Ok e -> has_perturbative = false -> 0 < max_iter o ->
      ltb (absdiff e e) (e_tol o) = true -> ltb (dist v v) (t_tol o) = true ->
      kern s = Ok (e, mkcc (amplitudes s) (lambdas s) e true (converged_lambda s)).
    Proof.
      intros H1 H2 H3 H4 H5 H6 H7 H8 H9 H10 H11. unfold kernel. rewrite H2. cbn [bind]. rewrite H7. cbn [bind]. rewrite H1.
      destruct (max_iter o) as [|m]; [lia|]. cbn [iterate]. rewrite H3. cbn [bind]. rewrite H4. cbn [bind]. rewrite H5. cbn [bind fst snd].
      rewrite H6. cbn [bind]. rewrite H7. cbn [bind]. rewrite H10, H11. cbn. rewrite H8. reflexivity.
    Qed.
  End Ground.

  Section Lambda.
    Variable init_amps : result A.
    Variable update_pert : A -> result A.
    Variable update : A -> A -> option A -> result A.
    Variable init_lams : A -> result A.
    Variables (to_vector : A -> result V) (of_vector : V -> result A).
    Variable damping : D -> V -> result (D * V).
    Variable damping0 : D.
    Variable has_perturbative : bool.
    Variable o : options R.
    Local Notation step t p := (one_update (fun l => update t l p) to_vector of_vector damping).
    Definition lmet (a a' : A) v := vector_met ltb dist to_vector (t_tol o) a v.
    Lemma iterate_lambda_run t p : forall fuel d l l' flag,
      iterate_lambda ltb dist update to_vector of_vector damping o fuel d t p l = Ok (l', flag) ->
      exists n, stopped_run (step t p) lmet fuel n d l l' flag.
    Proof.
      induction fuel as [|fuel IH]; intros d l l' flag H; cbn [iterate_lambda] in H.
      - apply ok_inj in H. injection H as <- <-. exists 0. apply run_zero.
      - apply bind_ok in H as (a1 & H1 & H). apply bind_ok in H as (v1 & H2 & H). apply bind_ok in H as ([d' v] & H3 & H). cbn [fst snd] in H.
        apply bind_ok in H as (a2 & H4 & H). apply bind_ok in H as (vp & H5 & H).
        assert (HS : step t p d l d' a2 v) by (exists a1, v1; auto).
        destruct (ltb _ _) eqn:E.
        + apply ok_inj in H. injection H as <- <-. exists 1. eapply run_stop; [exact HS|]. exists vp. auto.
        + destruct (IH _ _ _ _ H) as (n & HR). exists (S n). eapply run_more; eauto.
          intros v' HS' (w & Y1 & Y2). destruct (step_fun HS HS') as (_ & _ & <-). assert (w = vp) by congruence. subst. congruence.
    Qed.
    Theorem solve_lambda_flag s given s' :
      solve_lambda is_empty ltb dist init_amps update_pert update init_lams to_vector of_vector damping damping0 has_perturbative o s given = Ok s' ->
      exists t p l0, (if is_empty (amplitudes s) then init_amps = Ok t else t = amplitudes s) /\
        (if has_perturbative then exists q, update_pert t = Ok q /\ p = Some q else p = None) /\
        (if is_empty (lambdas s) then init_lams t = Ok l0 else l0 = lambdas s) /\
        (exists n, stopped_run (step t p) lmet (max_iter o) n damping0 l0 (lambdas s') (converged_lambda s')) /\
        amplitudes s' = amplitudes s /\ e_corr s' = e_corr s /\ converged s' = converged s.
    Proof.
      unfold solve_lambda. intros H. apply bind_ok in H as (t & Ht & H). apply bind_ok in H as (p & Hp & H). apply bind_ok in H as (l & Hl & H).
      apply bind_ok in H as ([l' c] & HR & H). apply ok_inj in H. subst s'. exists t, p, l. cbn.
      repeat apply conj; auto.
      - destruct (is_empty (amplitudes s)); [exact Ht|apply ok_inj in Ht; auto].
      - destruct has_perturbative; [apply bind_ok in Hp as (q & Hq & E); apply ok_inj in E; eauto|apply ok_inj in Hp; auto].
      - destruct (is_empty (lambdas s)); [exact Hl|apply ok_inj in Hl; auto].
      - eapply iterate_lambda_run; eauto.
    Qed.
  End Lambda.
End Solver.
