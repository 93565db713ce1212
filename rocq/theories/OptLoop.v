(** The loop of Brueckner optimisations: proofs about [loop] and [kernel] of OptModel.v. *)
From Coq Require Import List Arith Bool Lia.
From Verif Require Import Base OptModel OptSpec.
Import ListNotations.
Set Implicit Arguments.

Section Loop.
  Variables (A M U D R : Type).
  Variables (ltb : R -> R -> bool) (absdiff plus : R -> R -> R).
  Variable solve : M -> A -> result (A * R * bool).
  Variable get_rotation : A -> option U -> D -> result (D * U * U).
  Variable to_correlated : M -> result M.
  Variable update_coefficients : U -> M -> M -> result M.
  Variable mean_field_energy : M -> result R.
  Variable transform : U -> A -> result A.
  Variable t1_norm : A -> result R.
  Variable same_object : bool.
  Variable damping0 : D.
  Variable o : boptions R.

  Notation one := (@cycle A M U D R absdiff plus solve get_rotation update_coefficients mean_field_energy transform t1_norm same_object).
  Notation lp := (@loop A M U D R ltb absdiff plus solve get_rotation update_coefficients mean_field_energy transform t1_norm same_object o).
  Notation krn := (@kernel A M U D R ltb absdiff plus solve get_rotation to_correlated update_coefficients mean_field_energy transform t1_norm same_object damping0 o).
  Let small (de dt : R) := ltb de (e_tol o) && ltb dt (t_tol o).

  Lemma loop_cycles ref : forall fuel done s0 s s', cycles (one ref) small done s0 s false -> lp fuel ref s = Ok s' ->
    exists k stopped, done <= k <= done + fuel /\ cycles (one ref) small k s0 s' stopped /\ (stopped = true \/ k = done + fuel).
  Proof.
    induction fuel as [|fuel IH]; intros done s0 s s' C E.
    - cbn [loop] in E. inversion E; subst. exists done, false. split; [lia|]. split; [exact C|right; lia].
    - cbn [loop] in E. destruct (one ref s) as [[[s1 de] dt]|x] eqn:Eo; cbn [bind] in E; [|discriminate].
      pose proof (one_more C Eo) as C1. destruct (ltb de (e_tol o) && ltb dt (t_tol o)) eqn:Es.
      + inversion E; subst. exists (S done), true. split; [lia|]. split; [|left; reflexivity]. unfold small in C1 at 2. rewrite Es in C1. exact C1.
      + unfold small in C1 at 2. rewrite Es in C1. destruct (IH _ _ _ _ C1 E) as (k & st & Hk & C2 & Hs).
        exists k, st. split; [lia|]. split; [exact C2|]. destruct Hs as [|Hs]; [left; assumption|right; lia].
  Qed.

  Theorem kernel_cycles b e b' : krn b = Ok (e, b') ->
    exists ref s0 s k stopped, k <= max_iter o /\ cycles (one ref) small k s0 s stopped /\ (stopped = true \/ k = max_iter o) /\
      calculation b' = cc_of s /\ e = e_corr (calculation b') /\ to_correlated (mo (cc_of s0)) = Ok ref /\ u_tot s0 = None /\
      (if cc_converged (calculation b) then cc_of s0 = calculation b
       else exists a ec cv, solve (mo (calculation b)) (amplitudes (calculation b)) = Ok (a, ec, cv) /\
            amplitudes (cc_of s0) = a /\ e_corr (cc_of s0) = ec /\ mo (cc_of s0) = mo (calculation b)).
  Proof.
    unfold kernel. intros E. set (c0 := calculation b) in *.
    destruct (if cc_converged c0 then Ok c0 else _) as [c|] eqn:Ec; cbn [bind] in E; [|discriminate].
    destruct (to_correlated (mo c)) as [ref|] eqn:Er; cbn [bind] in E; [|discriminate].
    match type of E with bind ?l _ = _ => destruct l as [s|] eqn:El end; cbn [bind] in E; [|discriminate]. inversion E; subst e b'.
    destruct (@loop_cycles ref (max_iter o) 0 _ _ _ (none_yet _ _ _) El) as (k & st & Hk & C & Hs).
    exists ref, (mkst c None (mo c) damping0), s, k, st. cbn [calculation cc_of OptModel.u_tot]. split; [lia|]. split; [exact C|]. split; [exact Hs|].
    split; [reflexivity|]. split; [reflexivity|]. split; [exact Er|]. split; [reflexivity|].
    destruct (cc_converged c0); [inversion Ec; reflexivity|].
    destruct (solve (mo c0) (amplitudes c0)) as [[[a ec] cv]|]; cbn [bind] in Ec; [|discriminate]. inversion Ec; subst c. exists a, ec, cv. cbn. auto.
  Qed.
  Theorem kernel_flag b e b' : krn b = Ok (e, b') -> converged b' = converged b.
  Proof.
    unfold kernel. intros E. set (c0 := calculation b) in *.
    destruct (if cc_converged c0 then Ok c0 else _) as [c|] eqn:Ec; cbn [bind] in E; [|discriminate].
    destruct (to_correlated (mo c)) as [ref|] eqn:Er; cbn [bind] in E; [|discriminate].
    match type of E with bind ?l _ = _ => destruct l as [s|] eqn:El end; cbn [bind] in E; [|discriminate]. inversion E; reflexivity.
  Qed.

  Theorem stopped_last ref k s0 s' : cycles (one ref) small k s0 s' true ->
    exists s1 dt em, t1_norm (amplitudes (cc_of s')) = Ok dt /\ ltb dt (t_tol o) = true /\ mean_field_energy (coeff s') = Ok em /\
      e_mf (cc_of s') = em /\ mo (cc_of s') = coeff s' /\
      cycles (one ref) small (pred k) s0 s1 false /\
      ltb (absdiff (plus (if own (cc_of s1) then em else e_mf (cc_of s1)) (e_corr (cc_of s1))) (plus em (e_corr (cc_of s')))) (e_tol o) = true.
  Proof.
    intros C. remember true as st eqn:Hs in C. destruct C as [s|n s s1 s2 de dt C1 Eo]; [discriminate|]. unfold small in Hs. exists s1, dt. revert Eo. unfold cycle.
    destruct (get_rotation _ _ _) as [[[d u] ut]|]; cbn [bind]; [|discriminate].
    destruct (update_coefficients _ _ _) as [m|]; cbn [bind]; [|discriminate]. destruct (mean_field_energy m) as [em|] eqn:Em; cbn [bind]; [|discriminate].
    destruct (transform _ _) as [a|]; cbn [bind]; [|discriminate]. destruct (solve m a) as [[[a' ec] cv]|]; cbn [bind]; [|discriminate].
    destruct (t1_norm a') as [x|] eqn:Ex; cbn [bind]; [|discriminate]. intros Eq. inversion Eq; subst. cbn [cc_of amplitudes coeff e_mf mo pred e_corr own].
    apply andb_prop in Hs. destruct Hs as [Hs1 Hs2]. exists em. unfold e_tot in Hs1. cbn in Hs1. split; [exact Ex|]. split; [exact Hs2|]. split; [exact Em|]. split; [reflexivity|]. split; [reflexivity|]. split; [exact C1|exact Hs1].
  Qed.
  Theorem cycle_again ref s s' de dt : one ref s = Ok (s', de, dt) ->
    exists d u ut a a' ec cv em, get_rotation (amplitudes (cc_of s)) (u_tot s) (accel s) = Ok (d, u, ut) /\
      update_coefficients ut (coeff s) ref = Ok (coeff s') /\ mean_field_energy (coeff s') = Ok em /\ transform u (amplitudes (cc_of s)) = Ok a /\
      solve (coeff s') a = Ok (a', ec, cv) /\ amplitudes (cc_of s') = a' /\ e_corr (cc_of s') = ec /\ cc_converged (cc_of s') = cv /\ u_tot s' = Some ut /\ accel s' = d.
  Proof.
    unfold cycle.
    destruct (get_rotation _ _ _) as [[[d u] ut]|]; cbn [bind]; [|discriminate].
    destruct (update_coefficients _ _ _) as [m|] eqn:Eu; cbn [bind]; [|discriminate]. destruct (mean_field_energy m) as [em|] eqn:Em; cbn [bind]; [|discriminate].
    cbn [amplitudes]. destruct (transform _ _) as [a|] eqn:Et; cbn [bind]; [|discriminate]. destruct (solve m a) as [[[a' ec] cv]|] eqn:Es; cbn [bind]; [|discriminate].
    destruct (t1_norm a') as [x|] eqn:Ex; cbn [bind]; [|discriminate]. intros Eq. inversion Eq; subst. exists d, u, ut, a, a', ec, cv, em. cbn [cc_of amplitudes coeff e_corr cc_converged u_tot accel]. repeat split; assumption.
  Qed.
End Loop.
