(** Model of the solver loops of ebcc/cc/base.py.  Everything the loops call is a parameter: the integrals are fixed, the
    energy, update, vector conversion and starting-guess routines are arbitrary functions that may raise, the
    accelerator is an arbitrary state machine, and numbers with their comparisons are arbitrary (so a comparison
    may behave like one with NaN).  Not modelled: logging and timing. *)
From Verif Require Import Base.
Set Implicit Arguments.
Local Open Scope nat_scope.
Local Open Scope list_scope.
Local Open Scope py_scope.

Section Solver.
  Variables (A V D R : Type).
  (** [not amplitudes]: the namespace is empty. *)
  Variable is_empty : A -> bool.
  Variables (ltb : R -> R -> bool) (absdiff : R -> R -> R) (plus : R -> R -> R).
  (** [np.linalg.norm(np.abs(v - w), ord=np.inf)] *)
  Variable dist : V -> V -> R.

  Record options := mko { e_tol : R; t_tol : R; max_iter : nat }.
  (** The attributes the solvers read and write (base.py:189-194). *)
  Record cc := mkcc { amplitudes : A; lambdas : A; e_corr : R; converged : bool; converged_lambda : bool }.

  Section Ground.
    Variable init_amps : result A.
    Variable energy : A -> result R.
    Variable energy_perturbative : A -> result R.
    Variable update : A -> result A.
    Variables (to_vector : A -> result V) (of_vector : V -> result A).
    Variable damping : D -> V -> result (D * V).
    Variable damping0 : D.
    Variables (is_one_shot has_perturbative : bool).
    Variable o : options.

    (** The loop base.py:263-301: [fuel] iterations remain; returns the amplitudes, their energy and the flag. *)
    Fixpoint iterate (fuel : nat) (d : D) (a : A) (e : R) : result (A * R * bool) :=
      match fuel with
      | 0 => Ok (a, e, false)
      | S fuel' =>
          a1 <- update a ;;
          v1 <- to_vector a1 ;;
          dv <- damping d v1 ;;
          a' <- of_vector (snd dv) ;;
          vp <- to_vector a ;;
          e' <- energy a' ;;
          if ltb (absdiff e e') (e_tol o) && ltb (dist (snd dv) vp) (t_tol o)
          then Ok (a', e', true) else iterate fuel' (fst dv) a' e'
      end.

    (** [BaseEBCC.kernel] (base.py:229-326) *)
    Definition kernel (s : cc) : result (R * cc) :=
      a <- (if is_empty (amplitudes s) then init_amps else Ok (amplitudes s)) ;;
      e <- energy a ;;
      if is_one_shot then Ok (e, mkcc a (lambdas s) e true (converged_lambda s))
      else
        r <- iterate (max_iter o) damping0 a e ;;
        let '(a', e', c) := r in
        e'' <- (if has_perturbative then p <- energy_perturbative a' ;; Ok (plus e' p) else Ok e') ;;
        Ok (e'', mkcc a' (lambdas s) e'' c (converged_lambda s)).
  End Ground.

  Section Lambda.
    Variable init_amps : result A.
    (** [update_lams(amplitudes, perturbative=True)]; [update_lams(amplitudes, lambdas, lambdas_pert)]; [init_lams(amplitudes)] *)
    Variable update_pert : A -> result A.
    Variable update : A -> A -> option A -> result A.
    Variable init_lams : A -> result A.
    Variables (to_vector : A -> result V) (of_vector : V -> result A).
    Variable damping : D -> V -> result (D * V).
    Variable damping0 : D.
    Variable has_perturbative : bool.
    Variable o : options.

    (** The loop base.py:366-392. *)
    Fixpoint iterate_lambda (fuel : nat) (d : D) (t : A) (p : option A) (l : A) : result (A * bool) :=
      match fuel with
      | 0 => Ok (l, false)
      | S fuel' =>
          l1 <- update t l p ;;
          v1 <- to_vector l1 ;;
          dv <- damping d v1 ;;
          l' <- of_vector (snd dv) ;;
          vp <- to_vector l ;;
          if ltb (dist (snd dv) vp) (t_tol o) then Ok (l', true) else iterate_lambda fuel' (fst dv) t p l'
      end.

    (** [BaseEBCC.solve_lambda] (base.py:328-401).  The argument [given] is overwritten at base.py:345. *)
    Definition solve_lambda (s : cc) (given : option A) : result cc :=
      t <- (if is_empty (amplitudes s) then init_amps else Ok (amplitudes s)) ;;
      p <- (if has_perturbative then p <- update_pert t ;; Ok (Some p) else Ok None) ;;
      l <- (if is_empty (lambdas s) then init_lams t else Ok (lambdas s)) ;;
      r <- iterate_lambda (max_iter o) damping0 t p l ;;
      Ok (mkcc (amplitudes s) (fst r) (e_corr s) (converged s) (snd r)).
  End Lambda.
End Solver.
