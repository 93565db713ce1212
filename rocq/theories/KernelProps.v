(** Property theorems for the solver loops (C28, C29). *)
From Verif Require Import Base KernelModel KernelSpec KernelProofs.
Local Open Scope nat_scope.
Local Open Scope list_scope.

(** C28: whatever the equations, energies, accelerator and comparisons do: after a completed solve the amplitudes are the end of
    a run of at most [max_iter] updates from the starting amplitudes, in which only the last update can be within both
    tolerances; the flag says whether it is; and the energy is that of the final amplitudes plus the perturbative
    correction if the ansatz has one.  The lambda attributes are not touched. *)
Theorem C28_converged_flag : forall (A V D R : Type) (is_empty : A -> bool) (ltb : R -> R -> bool) (absdiff plus : R -> R -> R) (dist : V -> V -> R)
  (init_amps : result A) (energy energy_perturbative : A -> result R) (update : A -> result A) (to_vector : A -> result V)
  (of_vector : V -> result A) (damping : D -> V -> result (D * V)) (damping0 : D) (is_one_shot has_perturbative : bool) (o : options R) (s : cc A R) e s',
  kernel is_empty ltb absdiff plus dist init_amps energy energy_perturbative update to_vector of_vector damping damping0 is_one_shot has_perturbative o s = Ok (e, s') ->
  exists a0 e1, (if is_empty (amplitudes s) then init_amps = Ok a0 else a0 = amplitudes s) /\
    energy (amplitudes s') = Ok e1 /\ e_corr s' = e /\ lambdas s' = lambdas s /\ converged_lambda s' = converged_lambda s /\
    (if is_one_shot then amplitudes s' = a0 /\ converged s' = true /\ e = e1
     else (exists n, stopped_run (one_update update to_vector of_vector damping)
                       (fun a a' v => energy_met ltb absdiff energy (e_tol o) a a' /\ vector_met ltb dist to_vector (t_tol o) a v)
                       (max_iter o) n damping0 a0 (amplitudes s') (converged s')) /\
          (if has_perturbative then exists p, energy_perturbative (amplitudes s') = Ok p /\ e = plus e1 p else e = e1)).
Proof. exact kernel_flag. Qed.
Print Assumptions C28_converged_flag.

(** C28: solving again from amplitudes that the update leaves alone changes nothing and reports convergence. *)
Theorem C28_restart_is_stable : forall (A V D R : Type) (is_empty : A -> bool) (ltb : R -> R -> bool) (absdiff plus : R -> R -> R) (dist : V -> V -> R)
  (init_amps : result A) (energy energy_perturbative : A -> result R) (update : A -> result A) (to_vector : A -> result V)
  (of_vector : V -> result A) (damping : D -> V -> result (D * V)) (damping0 : D) (is_one_shot has_perturbative : bool) (o : options R) (s : cc A R) e v d1,
  is_one_shot = false -> is_empty (amplitudes s) = false -> update (amplitudes s) = Ok (amplitudes s) ->
  to_vector (amplitudes s) = Ok v -> damping damping0 v = Ok (d1, v) -> of_vector v = Ok (amplitudes s) ->
  energy (amplitudes s) = Ok e -> has_perturbative = false -> 0 < max_iter o ->
  ltb (absdiff e e) (e_tol o) = true -> ltb (dist v v) (t_tol o) = true ->
  kernel is_empty ltb absdiff plus dist init_amps energy energy_perturbative update to_vector of_vector damping damping0 is_one_shot has_perturbative o s =
    Ok (e, mkcc (amplitudes s) (lambdas s) e true (converged_lambda s)).
Proof. exact kernel_restart. Qed.
Print Assumptions C28_restart_is_stable.

(** A halving iteration on integers with tolerance 2, without acceleration: it converges at the third update; with a
    limit of two it reports failure. *)
Example C28_case :
  let run n := kernel (fun _ => false) Z.ltb (fun a b => Z.abs (a - b)) Z.add (fun a b => Z.abs (a - b)) (Err RuntimeError)
    (fun a => Ok a) (fun a => Ok 100%Z) (fun a => Ok (a / 2)%Z) (fun a => Ok a) (fun v => Ok v) (fun (d : unit) v => Ok (d, v)) tt false false
    (mko 2 2 n)%Z (mkcc 8 0 0 false false)%Z in
  run 10 = Ok (1, mkcc 1 0 1 true false)%Z /\ run 2 = Ok (2, mkcc 2 0 2 false false)%Z.
Proof. split; vm_compute; reflexivity. Qed.

(** C29: the same guarantees for the lambda solver, for the amplitudes stored on the object.  Missing: the amplitudes passed as an
    argument, which are ignored (next theorem). *)
Theorem C29_lambda_flag_partial : forall (A V D R : Type) (is_empty : A -> bool) (ltb : R -> R -> bool) (dist : V -> V -> R)
  (init_amps : result A) (update_pert : A -> result A) (update : A -> A -> option A -> result A) (init_lams : A -> result A) (to_vector : A -> result V)
  (of_vector : V -> result A) (damping : D -> V -> result (D * V)) (damping0 : D) (has_perturbative : bool) (o : options R) (s : cc A R) given s',
  solve_lambda is_empty ltb dist init_amps update_pert update init_lams to_vector of_vector damping damping0 has_perturbative o s given = Ok s' ->
  exists t p l0, (if is_empty (amplitudes s) then init_amps = Ok t else t = amplitudes s) /\
    (if has_perturbative then exists q, update_pert t = Ok q /\ p = Some q else p = None) /\
    (if is_empty (lambdas s) then init_lams t = Ok l0 else l0 = lambdas s) /\
    (exists n, stopped_run (one_update (fun l => update t l p) to_vector of_vector damping)
                 (fun l l' v => vector_met ltb dist to_vector (t_tol o) l v)
                 (max_iter o) n damping0 l0 (lambdas s') (converged_lambda s')) /\
    amplitudes s' = amplitudes s /\ e_corr s' = e_corr s /\ converged s' = converged s.
Proof. exact solve_lambda_flag. Qed.
Print Assumptions C29_lambda_flag_partial.

(** C29: an object whose stored amplitudes are 3, asked to solve for amplitudes 5: the lambda equation l = t gives 3. *)
Theorem C29_given_amplitudes_refuted : exists s' : cc Z Z,
  solve_lambda (fun _ => false) Z.ltb (fun a b => Z.abs (a - b)) (Err RuntimeError) (fun t => Ok t) (fun t l p => Ok t) (fun t => Ok t)
    (fun a => Ok a) (fun v => Ok v) (fun (d : unit) v => Ok (d, v)) tt false (mko 1 1 10)%Z (mkcc 3 0 0 true false)%Z (Some 5%Z) = Ok s' /\
  converged_lambda s' = true /\ lambdas s' = 3%Z.
Proof. eexists. vm_compute. repeat split; reflexivity. Qed.
Print Assumptions C29_given_amplitudes_refuted.
