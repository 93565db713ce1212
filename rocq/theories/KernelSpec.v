(** Trajectories of an iterative solver. *)
From Verif Require Import Base KernelModel.
Set Implicit Arguments.
Local Open Scope nat_scope.
Local Open Scope list_scope.

Section Spec.
  Variables (A V D R : Type).
  Variables (ltb : R -> R -> bool) (absdiff : R -> R -> R) (dist : V -> V -> R).

  (** One update from amplitudes [a] and accelerator state [d] to [a'] and [d'], the accelerated vector being [v]. *)
  Definition one_update (update : A -> result A) (to_vector : A -> result V) (of_vector : V -> result A) (damping : D -> V -> result (D * V))
      (d : D) (a : A) (d' : D) (a' : A) (v : V) : Prop :=
    exists u w, update a = Ok u /\ to_vector u = Ok w /\ damping d w = Ok (d', v) /\ of_vector v = Ok a'.

  (** The change from [a] to [a'] is within the tolerances. *)
  Definition energy_met (energy : A -> result R) (tol : R) (a a' : A) : Prop :=
    exists e e', energy a = Ok e /\ energy a' = Ok e' /\ ltb (absdiff e e') tol = true.
  Definition vector_met (to_vector : A -> result V) (tol : R) (a : A) (v : V) : Prop :=
    exists w, to_vector a = Ok w /\ ltb (dist v w) tol = true.

  (** A run of [n] updates from [a0]; no update but the last is within tolerance, the flag says whether the last one is, and
      the run is shorter than [limit] only if it is. *)
  Definition stopped_run (step : D -> A -> D -> A -> V -> Prop) (met : A -> A -> V -> Prop) (limit n : nat) (d0 : D) (a0 a : A) (flag : bool) : Prop :=
    exists (ds : nat -> D) (xs : nat -> A),
      let made k := exists v, step (ds k) (xs k) (ds (S k)) (xs (S k)) v in
      let met_at k := exists v, step (ds k) (xs k) (ds (S k)) (xs (S k)) v /\ met (xs k) (xs (S k)) v in
      ds 0 = d0 /\ xs 0 = a0 /\ xs n = a /\ n <= limit /\
      (forall k, k < n -> made k) /\
      (forall k, S k < n -> ~ met_at k) /\
      (flag = true <-> 0 < n /\ met_at (n - 1)) /\
      (flag = false -> n = limit).
End Spec.
