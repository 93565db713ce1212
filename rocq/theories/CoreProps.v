(** Property theorems for precision contexts (C37), options (C52) and files (C36). *)
From Coq Require Import String.
From Verif Require Import Base SpaceModel AnsatzModel CoreModel CoreSpec CoreProofs CoreDump CoreEx.
Local Open Scope string_scope.
Local Open Scope list_scope.
Local Open Scope nat_scope.

(** C37: any program in which no context is left by an exception observes the types of lexical scoping, and ends with
    them.  Missing: contexts left by an exception, for which the claim is false (below). *)
Theorem C37_scoping_partial : forall (T : Type) (p : prog T) (s : ptypes T),
  contained false p = true -> prun p s = scoped p s.
Proof. exact prun_scoped. Qed.
Print Assumptions C37_scoping_partial.

(** C37: whatever the body does, if it ends normally the rest of the program starts with the types in force before the context. *)
Theorem C37_normal_exit : forall (T : Type) (k : pkw T) (body rest : prog T) (s : ptypes T) o s1,
  prun body (set_precision k s) = (o, s1, true) ->
  prun (PWith k body rest) s = (let '(o2, s2, ok2) := prun rest s in (o ++ o2, s2, ok2)).
Proof. exact with_normal. Qed.
Print Assumptions C37_normal_exit.

(** C37 is violated: after an exception in the body, caught outside, the types of the context stay in force. *)
Theorem C37_exception_refuted : exists (p : prog nat) (s : ptypes nat), prun p s <> scoped p s.
Proof.
  exists (PTry (PWith (Some 32, Some 64) PRaise PDone) PDone (PObserve PDone)), (64, 128). vm_compute. discriminate.
Qed.
Print Assumptions C37_exception_refuted.

(** Two nested contexts, an explicit setting inside, a caught exception inside: observed inside and after. *)
Example C37_case :
  let p := PWith (Some 32, None) (PObserve (PWith (None, Some 64) (PSet (Some 16, None) (PTry (PRaise) (PObserve PDone) PDone)) (PObserve PDone))) (PObserve PDone) in
  contained false p = true /\ prun p (64, 128) = ([(32, 128); (16, 64); (32, 128); (64, 128)], (64, 128), true).
Proof. vm_compute. split; reflexivity. Qed.

(** C52: constructing a calculation without an options object leaves the options of all earlier calculations as they were,
    whatever happened before. *)
Theorem C52_fresh : forall (V : Type) (vfalse : V) (defaults : opts V) (h : list (oevent V)) kw bosons i,
  valid_history vfalse defaults world0 h -> i < length (w_calcs (orun vfalse defaults h)) ->
  seen (ostep vfalse defaults (orun vfalse defaults h) (Construct None kw bosons)) i = seen (orun vfalse defaults h) i.
Proof. exact fresh_untouched. Qed.
Print Assumptions C52_fresh.

(** C52: the new calculation sees the options object given to it (or the defaults) overridden by the keywords; without bosons
    the shift is off. *)
Theorem C52_new : forall (V : Type) (vfalse : V) (defaults : opts V) (given : option nat) kw (bosons : bool) (w : world V) base,
  NoDup (map fst kw) ->
  match given with None => base = defaults | Some r => nth_error (w_objs w) r = Some base end ->
  exists o, seen (construct_opts vfalse defaults given kw bosons w) (length (w_calcs w)) = Some o /\
    forall k, dget pystr_eq_dec k o =
      if (if pystr_eq_dec k k_shift then negb bosons else false) then Some vfalse
      else match dget pystr_eq_dec k kw with Some v => Some v | None => dget pystr_eq_dec k base end.
Proof. exact new_options. Qed.
Print Assumptions C52_new.

(** C52: with an options object, calculations that hold another object keep their options, and those that share it keep
    every option other than the keywords and the shift.  Missing: that they keep these too, which is false (below). *)
Theorem C52_shared_partial : forall (V : Type) (vfalse : V) (defaults : opts V) r kw (bosons : bool) (w : world V) i o,
  i < length (w_calcs w) -> seen w i = Some o ->
  (forall c, nth_error (w_calcs w) i = Some c -> c_ref c <> r ->
     seen (construct_opts vfalse defaults (Some r) kw bosons w) i = Some o) /\
  (exists o', seen (construct_opts vfalse defaults (Some r) kw bosons w) i = Some o' /\
     forall k, ~ In k (map fst kw) -> k <> k_shift -> dget pystr_eq_dec k o' = dget pystr_eq_dec k o).
Proof. exact shared_effect. Qed.
Print Assumptions C52_shared_partial.

(** C52: converting a calculation to another spin type changes nobody's options if it has bosons or its shift is off. *)
Theorem C52_convert : forall (V : Type) (vfalse : V) (defaults : opts V) (w : world V) c x o i,
  nth_error (w_calcs w) c = Some x -> options_of w x = Some o ->
  (c_bosons x = true \/ dget pystr_eq_dec k_shift o = Some vfalse) ->
  i < length (w_calcs w) -> seen (ostep vfalse defaults w (Convert c)) i = seen w i.
Proof. exact convert_harmless. Qed.
Print Assumptions C52_convert.

(** C52 is violated: the second calculation's keyword reaches the first one, and a calculation without bosons switches off the
    shift of one with bosons. *)
Theorem C52_refuted : exists (defaults : opts nat) (h : list (oevent nat)) (e : oevent nat) i o o',
  valid_history 0 defaults world0 (h ++ [e]) /\ seen (orun 0 defaults h) i = Some o /\
  seen (ostep 0 defaults (orun 0 defaults h) e) i = Some o' /\
  (exists k, dget pystr_eq_dec k o' <> dget pystr_eq_dec k o) /\ dget pystr_eq_dec k_shift o' <> dget pystr_eq_dec k_shift o.
Proof.
  exists [(str "e_tol", 8); (str "shift", 1)], [NewOptions [(str "e_tol", 8); (str "shift", 1)]; Construct (Some 0) [] true],
    (Construct (Some 0) [(str "e_tol", 4)] false), 0, [(str "e_tol", 8); (str "shift", 1)], [(str "e_tol", 4); (str "shift", 0)].
  split; [cbn; repeat split; lia|]. split; [reflexivity|]. split; [reflexivity|]. split; [exists (str "e_tol")|]; vm_compute; discriminate.
Qed.
Print Assumptions C52_refuted.

(** Three calculations, the second fresh, the third converted from the first. *)
Example C52_case :
  let d := [(str "e_tol", 8); (str "shift", 1)] in
  let w := orun 0 d [NewOptions [(str "e_tol", 6); (str "shift", 1)]; Construct (Some 0) [] false; Construct None [(str "e_tol", 3)] true; Convert 0] in
  valid_history 0 d world0 [NewOptions [(str "e_tol", 6); (str "shift", 1)]; Construct (Some 0) [] false; Construct None [(str "e_tol", 3)] true; Convert 0] /\
  map (seen w) [0; 1; 2] = [Some [(str "e_tol", 6); (str "shift", 0)]; Some [(str "e_tol", 3); (str "shift", 1)]; Some [(str "e_tol", 6); (str "shift", 0)]].
Proof. split; [cbn; repeat split; lia|reflexivity]. Qed.

(** C36: a calculation of any spin type, however far it has been solved, is read back from the file it was written to,
    whatever that file held before.  Options hold numbers and flags, the mean field is a plain Hartree-Fock object, the ansatz
    neither names a module nor uses density fitting.  Missing: objects with a module name, density fitting or options that
    are None, for which the claim is false (below). *)
Theorem C36_restored_partial : forall (V M D R : Type) (reorder : forall A : Type, dict pystr A -> dict pystr A),
  (forall A (d : dict pystr A), Permutation (reorder A d) d) ->
  forall (plain_hf : spin_type -> R) (enc_mol : M -> pyv V) (dec_mol : pyv V -> result M),
  (forall m, exists v, stored reorder (enc_mol m) = Ok v /\ dec_mol v = Ok m) ->
  forall (importable : pystr -> bool) (nmodes : V -> nat)
    (derive : spin_type -> mfobj V M R -> ansatz -> spaces -> option V -> option V -> option V -> V -> V -> pyv V -> result D)
    (vzero : V) (defaults : dict pystr (pyv V))
    t (f : file V) (mf : mfobj V M R) x (kws : dict pystr (pyv V)) sp omega g G mo_coeff mo_occ o0 e c cl a l,
  construct importable nmodes derive vzero t mf x (oset defaults kws) sp omega g G mo_coeff mo_occ = Ok o0 ->
  NoDup (map fst defaults) -> Forall (fun p => storable (snd p)) defaults -> Forall (fun p => storable (snd p)) kws ->
  mf_rest mf = plain_hf t -> xa_module x = None -> truthy (xa_df x) = false -> ascii (xa_fermion x) -> ascii (xa_boson x) ->
  space_wf t sp -> storable e -> storable c -> storable cl ->
  let u := match t with SU => true | _ => false end in
  amps_wf u a -> amps_wf u l ->
  (a = None -> load f (str "amplitudes") = PNone) -> (l = None -> load f (str "lambdas") = PNone) ->
  exists f' o', write reorder enc_mol f (with_results o0 e c cl a l) = Ok f' /\
    read plain_hf dec_mol importable nmodes derive vzero defaults f' = Ok o' /\ same (with_results o0 e c cl a l) o'.
Proof. exact roundtrip. Qed.
Print Assumptions C36_restored_partial.

(** C36 is violated for an ansatz with a module name: it is read as the density-fitting flag, so that other equations are imported. *)
Theorem C36_module_refuted : exists x o o', xa_module x = Some (str "custom") /\ reread x [] = Ok (o, o') /\
  module_of (o_spin o) (o_ansatz o) = str "custom" /\ module_of (o_spin o') (o_ansatz o') = str "RDFCCSD".
Proof.
  exists (mkxa (str "CCSD") [] 0 0 (PBool false) (Some (str "custom"))). eexists; eexists. split; [reflexivity|].
  split; [vm_compute; reflexivity|]. split; vm_compute; reflexivity.
Qed.
Print Assumptions C36_module_refuted.

(** C36 is violated for density fitting: the flag is not written. *)
Theorem C36_density_fitting_refuted : exists x o o', reread x [] = Ok (o, o') /\
  dfit (plain (o_ansatz o)) = true /\ dfit (plain (o_ansatz o')) = false.
Proof.
  exists (mkxa (str "CCSD") [] 0 0 (PBool true) None). eexists; eexists.
  split; [vm_compute; reflexivity|]. split; vm_compute; reflexivity.
Qed.
Print Assumptions C36_density_fitting_refuted.

(** C36 is violated for an option set to None: it comes back as the default. *)
Theorem C36_none_option_refuted : exists kw o o', reread ccsd kw = Ok (o, o') /\
  dget pystr_eq_dec (str "max_iter") (o_options o) = Some PNone /\ dget pystr_eq_dec (str "max_iter") (o_options o') = Some (PNat 200).
Proof.
  exists [(str "max_iter", PNone)]. eexists; eexists. split; [vm_compute; reflexivity|]. split; vm_compute; reflexivity.
Qed.
Print Assumptions C36_none_option_refuted.

(** An unrestricted calculation with bosons, solved, written over an older file: the hypotheses hold. *)
Example C36_case : exists o0,
  construct0 SU mf0 ebccsd (oset defaults0 [(str "e_tol", POther 6)]) (Two sp0 sp0) (Some 2) (Some 5) None 1 2 = Ok o0 /\
  (forall A (d : dict pystr A), Permutation (backwards A d) d) /\ (forall m, exists v, stored backwards (enc m) = Ok v /\ dec v = Ok m) /\
  ascii (xa_fermion ebccsd) /\ ascii (xa_boson ebccsd) /\ space_wf SU (Two sp0 sp0) /\ amps_wf true (Some amps0) /\
  (exists f' o', write0 [(str "amplitudes", PDict [(str "t1", POther 99)])] (with_results o0 (POther 7) (PBool true) (PBool false) (Some amps0) (Some [])) = Ok f' /\
     read0 f' = Ok o' /\ o_amplitudes o' = Some [(str "s1", AArr 23); (str "t1", ASpin [(str "bb", 22); (str "aa", 21)])] /\
     dget pystr_eq_dec (str "e_tol") (o_options o') = Some (POther 6) /\ o_e_corr o' = POther 7 /\ o_converged o' = PBool true).
Proof.
  eexists. split; [vm_compute; reflexivity|]. split; [intros A d; apply Permutation_sym, Permutation_rev|].
  split; [intros m; exists (PNat m); split; reflexivity|].
  split; [unfold ascii; repeat constructor; vm_compute; lia|]. split; [unfold ascii; repeat constructor; vm_compute; lia|].
  split; [split; reflexivity|].
  split. { split; [repeat (constructor; [vm_compute; intuition discriminate|]); constructor|].
    intros k v [[= <- <-]|[[= <- <-]|[]]]; [|exact I]. split; [reflexivity|]. repeat (constructor; [vm_compute; intuition discriminate|]); constructor. }
  eexists; eexists. split; [vm_compute; reflexivity|]. split; [vm_compute; reflexivity|]. repeat split; vm_compute; reflexivity.
Qed.
