(** What contexts, options and files should do. *)
From Coq Require Import String.
From Verif Require Import Base SpaceModel AnsatzModel CoreModel.
Set Implicit Arguments.
Local Open Scope list_scope.
Local Open Scope nat_scope.

(** * Precision: lexical scoping.  A context never changes the types in force outside it, however it is left. *)
Section Precision.
  Variable T : Type.
  Fixpoint scoped (p : prog T) (s : ptypes T) : list (ptypes T) * ptypes T * bool :=
    match p with
    | PDone => ([], s, true)
    | PObserve rest => let '(o, s', ok) := scoped rest s in (s :: o, s', ok)
    | PSet k rest => scoped rest (match fst k with Some t => t | None => fst s end, match snd k with Some t => t | None => snd s end)
    | PWith k body rest =>
        let '(o1, _, ok1) := scoped body (match fst k with Some t => t | None => fst s end, match snd k with Some t => t | None => snd s end) in
        if ok1 then let '(o2, s2, ok2) := scoped rest s in (o1 ++ o2, s2, ok2) else (o1, s, false)
    | PRaise => ([], s, false)
    | PTry body handler rest =>
        let '(o1, s1, ok1) := scoped body s in
        let '(o2, s2, ok2) := if ok1 then ([], s1, true) else scoped handler s1 in
        if ok2 then let '(o3, s3, ok3) := scoped rest s2 in (o1 ++ o2 ++ o3, s3, ok3) else (o1 ++ o2, s2, false)
    end.
  (** No context is left by an exception: every [raise] inside a context is caught inside it. *)
  Fixpoint contained (inside : bool) (p : prog T) : bool :=
    match p with
    | PDone => true
    | PObserve rest | PSet _ rest => contained inside rest
    | PWith _ body rest => contained true body && contained inside rest
    | PRaise => negb inside
    | PTry body handler rest => contained false body && contained inside handler && contained inside rest
    end.
End Precision.

(** * Options *)
Section Options.
  Variable V : Type.
  (** The options that the [i]-th calculation sees. *)
  Definition seen (w : world V) (i : nat) : option (opts V) :=
    match nth_error (w_calcs w) i with Some c => options_of w c | None => None end.
End Options.

(** * Files *)
Section Dump.
  Variables (V M D R : Type).
  Local Notation obj := (obj V M D R).
  Definition same_map {A} (d d' : dict pystr A) : Prop := forall k, dget pystr_eq_dec k d = dget pystr_eq_dec k d'.
  Definition same_value (a b : aval V) : Prop :=
    match a, b with AArr x, AArr y => x = y | ASpin d, ASpin d' => same_map d d' | _, _ => False end.
  Definition same_amps (a b : option (amps V)) : Prop :=
    match a, b with
    | None, None => True
    | Some a, Some b => forall k, match dget pystr_eq_dec k a, dget pystr_eq_dec k b with
                                  | Some x, Some y => same_value x y | None, None => True | _, _ => False end
    | _, _ => False
    end.
  (** The same calculation, as far as a user can see. *)
  Record same (o o' : obj) : Prop := {
    same_spin : o_spin o' = o_spin o;
    same_options : same_map (o_options o') (o_options o);
    same_mf : o_mf o' = o_mf o;
    same_mo : o_mo_coeff o' = o_mo_coeff o /\ o_mo_occ o' = o_mo_occ o;
    same_ansatz : plain (o_ansatz o') = plain (o_ansatz o);
    same_module : xa_module (o_ansatz o') = xa_module (o_ansatz o);
    same_space : o_space o' = o_space o;
    same_bosons : o_omega o' = o_omega o /\ o_g o' = o_g o /\ o_G o' = o_G o;
    same_derived : o_derived o' = o_derived o;
    same_results : o_e_corr o' = o_e_corr o /\ o_converged o' = o_converged o /\ o_converged_lambda o' = o_converged_lambda o;
    same_amplitudes : same_amps (o_amplitudes o') (o_amplitudes o);
    same_lambdas : same_amps (o_lambdas o') (o_lambdas o) }.

  (** A calculation after any assignment of results by the solvers. *)
  Definition with_results (o : obj) e c cl a l : obj :=
    mkobj (o_spin o) (o_options o) (o_mf o) (o_mo_coeff o) (o_mo_occ o) (o_ansatz o) (o_space o) (o_omega o) (o_g o) (o_G o) (o_derived o) e c cl a l.

  Definition amps_wf (u : bool) (a : option (amps V)) : Prop :=
    match a with
    | None => True
    | Some a => NoDup (map fst a) /\
        forall k v, In (k, v) a -> match v with AArr _ => True | ASpin d => u = true /\ NoDup (map fst d) end
    end.
  Definition space_wf (t : spin_type) (sp : spaces) : Prop :=
    let ok s := make_space (sp_occupied s) (sp_frozen s) (sp_active s) = Ok s in
    match t, sp with SU, Two a b => ok a /\ ok b | SU, One _ => False | _, One s => ok s | _, Two _ _ => False end.
  (** Numbers, booleans and arrays: the values a file gives back unchanged. *)
  Definition storable (v : pyv V) : Prop := match v with POther _ | PNat _ | PBool _ | PMask _ | PBytes _ => True | _ => False end.
  Definition ascii (s : pystr) : Prop := Forall (fun c => c < 128) s.
End Dump.
