(** The Davidson eigensolver (ebcc/core/davidson.py): C42, C43, C58, C59.
    In every statement the eigensolver, the choice of roots, the operator, the norm and the comparison are arbitrary
    up to the named hypotheses; [after one s0 o] says that [o] ends some cycle of a run from [s0]. *)
From Coq Require Import List Arith Bool.
From Verif Require Import Base Alg DavModel DavSpec DavProofs DavThms DavConv DavPick DavEx DavPre.
Import ListNotations.
Local Open Scope nat_scope.

(** C42: at the end of every cycle the basis is orthonormal, the stored matrix represents the operator in it, and the number of basis
    vectors is at most the enlarged limit max_space + 6 (nroots - 1), or the number of roots or of guesses if larger. *)
Theorem C42_subspace_invariants :
  forall (F : fld) (ltb : F -> F -> bool) norm matvec eig pick diag nroots max_space max_trials e_tol loose_tol lindep_tol ptol level_shift follow junk guesses o,
  is_norm (length diag) norm -> ltb lindep_tol r0 = false ->
  (forall v, length v = length diag -> length (matvec v) = length diag) -> Forall (fun x => length x = length diag) guesses ->
  after (cycle (F := F) ltb norm matvec eig pick diag nroots max_space max_trials e_tol loose_tol lindep_tol ptol level_shift follow) (start nroots junk guesses) o ->
  let s := state_of o in
  length (basis s) = space s /\ space s <= Nat.max (Nat.max (max_space + nroots * 6 - 6) nroots) (length guesses) /\
  orthonormal_set (length diag) (basis s) /\ represents (length diag) matvec (basis s) (sub s).
Proof. intros F ltb norm matvec eig pick diag nroots max_space max_trials e_tol loose_tol lindep_tol ptol level_shift follow junk guesses o Hn Ht Hm Hg H. exact (invariants Hn Ht Hm Hg H). Qed.
Print Assumptions C42_subspace_invariants.

(** C42: with no more guesses than the matrix has rows, no cycle writes outside the matrix. *)
Theorem C42_matrix_large_enough :
  forall (F : fld) (ltb : F -> F -> bool) norm matvec eig pick diag nroots max_space max_trials e_tol loose_tol lindep_tol ptol level_shift follow junk guesses s,
  is_norm (length diag) norm -> ltb lindep_tol r0 = false ->
  (forall v, length v = length diag -> length (matvec v) = length diag) -> Forall (fun x => length x = length diag) guesses ->
  length guesses <= max_space + nroots * 6 - 6 + nroots -> (forall w v k b, pick w v k b <> Err IndexError) ->
  let one := cycle (F := F) ltb norm matvec eig pick diag nroots max_space max_trials e_tol loose_tol lindep_tol ptol level_shift follow in
  s = start nroots junk guesses \/ after one (start nroots junk guesses) (Continue s) -> one s <> Err IndexError.
Proof.
  intros F ltb norm matvec eig pick diag nroots max_space max_trials e_tol loose_tol lindep_tol ptol level_shift follow junk guesses s Hn Ht Hm Hg Hl Hp one H.
  exact (never_overflows Hn Ht Hm Hg Hl Hp H).
Qed.
Print Assumptions C42_matrix_large_enough.

(** C42, refuted without that condition: more independent guesses than rows of the matrix are written outside it. *)
Theorem C42_too_many_guesses_refuted : exists max_space (guesses : list (list DavEx.F)), Forall (fun x => length x = 3) guesses /\
  cycle (F := DavEx.F) qlt (qnorm 3) op3 eig3 pick3 diag3 1 max_space 40 small_tol small_tol small_tol (qi 1) (qi 0) false (start 1 (fun _ _ => qi 0) guesses) = Err IndexError.
Proof. exists 1, [[qi 1; qi 0; qi 0]; [qi 0; qi 1; qi 0]; [qi 0; qi 0; qi 1]]. split; [repeat constructor|vm_compute; reflexivity]. Qed.
Print Assumptions C42_too_many_guesses_refuted.

(** C58: a root reported as converged is an eigenpair up to the residual tolerance. *)
Theorem C58_converged_means_small_residual :
  forall (F : fld) (ltb : F -> F -> bool) norm matvec eig eig_left pick diag nroots max_space max_trials e_tol loose_tol lindep_tol ptol level_shift junk guesses max_iter conv w vecs,
  is_norm (length diag) norm -> ltb lindep_tol r0 = false -> linear_map (length diag) matvec -> Forall (fun x => length x = length diag) guesses ->
  davidson (F := F) ltb norm matvec eig eig_left pick diag nroots max_space max_trials e_tol loose_tol lindep_tol ptol level_shift false junk guesses max_iter false = Ok (conv, w, vecs) ->
  forall k, nth k conv false = true -> k < length w /\
  exists x, nth_error vecs k = Some (map (fun a => (a, r0)) x) /\
  forall r, length r = length (matvec x) -> (forall i, i < length r -> coord r i = rsub (coord (matvec x) i) (rmul (nth k w r0) (coord x i))) -> ltb (norm r) loose_tol = true.
Proof.
  intros F ltb norm matvec eig eig_left pick diag nroots max_space max_trials e_tol loose_tol lindep_tol ptol level_shift junk guesses max_iter conv w vecs Hn Ht Hl Hg E.
  exact (converged_means ltb eig eig_left pick diag nroots max_space max_trials e_tol loose_tol lindep_tol ptol level_shift Hn Ht Hl junk max_iter Hg E).
Qed.
Print Assumptions C58_converged_means_small_residual.

(** C58: inner products of the returned vectors are those of the eigenvectors of the small matrix, so unit columns give unit vectors. *)
Theorem C58_vectors_keep_inner_products :
  forall (F : fld) (ltb : F -> F -> bool) norm matvec eig pick diag nroots max_space max_trials e_tol loose_tol lindep_tol ptol level_shift junk guesses o,
  is_norm (length diag) norm -> ltb lindep_tol r0 = false -> linear_map (length diag) matvec -> Forall (fun x => length x = length diag) guesses ->
  after (cycle (F := F) ltb norm matvec eig pick diag nroots max_space max_trials e_tol loose_tol lindep_tol ptol level_shift false) (start nroots junk guesses) o ->
  let s := state_of o in forall i j, i < length (v_of s) -> j < length (v_of s) ->
  inner (length diag) (nth i (vectors s) []) (nth j (vectors s) []) = inner (space s) (nth i (v_of s) []) (nth j (v_of s) []).
Proof.
  intros F ltb norm matvec eig pick diag nroots max_space max_trials e_tol loose_tol lindep_tol ptol level_shift junk guesses o Hn Ht Hl Hg H. exact (vectors_isometric Hn Ht Hl Hg H).
Qed.
Print Assumptions C58_vectors_keep_inner_products.

(** C58: when the column is an eigenvector of the small matrix, the residual is orthogonal to the whole basis. *)
Theorem C58_residual_orthogonal_to_basis :
  forall (F : fld) (ltb : F -> F -> bool) norm matvec eig pick diag nroots max_space max_trials e_tol loose_tol lindep_tol ptol level_shift junk guesses o,
  is_norm (length diag) norm -> ltb lindep_tol r0 = false -> linear_map (length diag) matvec -> Forall (fun x => length x = length diag) guesses ->
  after (cycle (F := F) ltb norm matvec eig pick diag nroots max_space max_trials e_tol loose_tol lindep_tol ptol level_shift false) (start nroots junk guesses) o ->
  let s := state_of o in forall k, k < length (v_of s) ->
  (forall i, i < space s -> rsum (map (fun j => rmul (sub s i j) (coord (nth k (v_of s) []) j)) (seq 0 (space s))) = rmul (nth k (w_of s) r0) (coord (nth k (v_of s) []) i)) ->
  forall b, In b (basis s) -> inner (length diag) b (matvec (nth k (vectors s) [])) = rmul (nth k (w_of s) r0) (inner (length diag) b (nth k (vectors s) [])).
Proof.
  intros F ltb norm matvec eig pick diag nroots max_space max_trials e_tol loose_tol lindep_tol ptol level_shift junk guesses o Hn Ht Hl Hg H. exact (galerkin Hn Ht Hl Hg H).
Qed.
Print Assumptions C58_residual_orthogonal_to_basis.

(** The operator with rows (0,3,4), (3,0,0), (4,0,0): two cycles find the eigenvalue -5 with vector (1, -3/5, -4/5), reported as converged. *)
Example C58_found : show (davidson3 5) =
  Ok ([true], [QArith_base.Qmake (-5) 1], [map (fun q => (q, QArith_base.Qmake 0 1)) [QArith_base.Qmake 1 1; QArith_base.Qmake (-3) 5; QArith_base.Qmake (-4) 5]]).
Proof. vm_compute. reflexivity. Qed.
Example C58_hypotheses : is_norm 3 (qnorm 3) /\ linear_map 3 op3 /\ qlt small_tol r0 = false.
Proof. split; [apply qnorm_ok|]. split; [apply apply_linear; reflexivity|vm_compute; reflexivity]. Qed.
Example C42_reached : exists s s', after (cycle3 false) start3 (Continue s) /\ after (cycle3 false) start3 (Break s') /\ space s' = 2 /\
  map (map Qcanon.this) (basis s') = [[QArith_base.Qmake 1 1; QArith_base.Qmake 0 1; QArith_base.Qmake 0 1]; [QArith_base.Qmake 0 1; QArith_base.Qmake 3 5; QArith_base.Qmake 4 5]].
Proof. exact reached3. Qed.

(** C59, refuted: with [follow_state] the solver never restarts from the previous vectors.  After any first cycle, a cycle with the
    option either does what it would do without, or ends in an error. *)
Theorem C59_follow_state_never_restarts :
  forall (F : fld) (ltb : F -> F -> bool) argsort is_zero norm matvec eig tol diag nroots max_space max_trials e_tol loose_tol lindep_tol ptol level_shift junk guesses s,
  sorts ltb argsort ->
  is_norm (length diag) norm -> ltb lindep_tol r0 = false -> (forall v, length v = length diag -> length (matvec v) = length diag) -> well_shaped eig -> 0 < nroots ->
  Forall (fun x => length x = length diag) guesses ->
  let one := cycle (F := F) ltb norm matvec eig (pick_real F ltb argsort is_zero tol) diag nroots max_space max_trials e_tol loose_tol lindep_tol ptol level_shift in
  after (one true) (start nroots junk guesses) (Continue s) -> one true s = one false s \/ one true s = Err ValueError.
Proof.
  intros F ltb argsort is_zero norm matvec eig tol diag nroots max_space max_trials e_tol loose_tol lindep_tol ptol level_shift junk guesses s Hs Hn Ht Hm Hw Hr Hg one H.
  exact (follow_never Hs Hn Ht Hm Hw Hr Hg H).
Qed.
Print Assumptions C59_follow_state_never_restarts.
(** C59: every component of a preconditioned vector is the component of the vector over a number that is not smaller in
    absolute value than the threshold, and that is the diagonal entry minus the energy unless that one is smaller. *)
Theorem C59_preconditioner : forall (F : fld) (ltb : F -> F -> bool) diag tol dx (e : F) i d r, ltb (absv F ltb tol) tol = false ->
  nth_error diag i = Some d -> nth_error dx i = Some r ->
  exists s, nth_error (precondition F ltb diag tol dx e) i = Some (fdiv r s) /\ ltb (absv F ltb s) tol = false /\
    (ltb (absv F ltb (rsub d e)) tol = false -> s = rsub d e).
Proof. exact precondition_safe. Qed.
Print Assumptions C59_preconditioner.
Example C59_preconditioner_case : qlt (absv DavEx.F qlt (qi 1)) (qi 1) = false /\ nth_error (precondition DavEx.F qlt [qi 5; qi 4] (qi 1) [qi 6; qi 7] (qi 4)) 1 = Some (fdiv (qi 7) (qi 1)).
Proof. split; vm_compute; reflexivity. Qed.

(** C59: in the first cycle the option leaves no vectors, and the next cycle fails. *)
Theorem C59_first_cycle :
  forall (F : fld) (ltb : F -> F -> bool) norm matvec eig pick diag nroots max_space max_trials e_tol loose_tol lindep_tol ptol level_shift junk guesses s,
  let one := cycle (F := F) ltb norm matvec eig pick diag nroots max_space max_trials e_tol loose_tol lindep_tol ptol level_shift in
  one true (start nroots junk guesses) = Ok (Continue s) -> one false (start nroots junk guesses) = Ok (Continue s) \/ one true s = Err ValueError.
Proof.
  intros F ltb norm matvec eig pick diag nroots max_space max_trials e_tol loose_tol lindep_tol ptol level_shift junk guesses s one H.
  exact (follow_first ltb norm matvec eig pick diag nroots max_space max_trials e_tol loose_tol lindep_tol ptol level_shift junk guesses H).
Qed.
Print Assumptions C59_first_cycle.
(** C59: a run that fails with the option and goes on without it. *)
Theorem C59_follow_state_refuted : spaces (loop8 true 6) = Err ValueError /\ spaces (loop8 false 6) = Ok 6.
Proof. split; vm_compute; reflexivity. Qed.
Print Assumptions C59_follow_state_refuted.
Example C59_hypotheses : sorts qlt order /\ is_norm 8 (qnorm 8) /\ well_shaped eig8 /\ (forall v, length (op8 v) = 8).
Proof. split; [apply order_sorts|]. split; [apply qnorm_ok|]. split; [apply eig8_shaped|]. intros v. apply map_length. Qed.

(** C43: the values returned are those at [idx], sorted; nothing discarded has a smaller imaginary part than something kept; everything
    below the threshold is kept.  (What is returned for the vectors: one column for each.) *)
Theorem C43_values_picked :
  forall (F : fld) (ltb : F -> F -> bool) argsort is_zero tol w v nroots b ws cols idx, strict_order ltb -> sorts ltb argsort ->
  pick_real F ltb argsort is_zero tol w v nroots b = Ok (ws, cols, idx) ->
  NoDup idx /\ (forall i, In i idx -> i < length w) /\ ws = map (fun i => fst (nth i w (r0, r0))) idx /\ length cols = length idx /\
  (forall i j, i < j -> j < length ws -> ltb (nth j ws r0) (nth i ws r0) = false) /\
  (forall i j, In i idx -> j < length w -> ~ In j idx -> ltb (absv F ltb (snd (nth j w (r0, r0)))) (absv F ltb (snd (nth i w (r0, r0)))) = false) /\
  (forall i, i < length w -> ltb (absv F ltb (snd (nth i w (r0, r0)))) tol = true -> In i idx).
Proof. intros F ltb argsort is_zero tol w v nroots b ws cols idx Ho Hs E. exact (picked is_zero Ho Hs tol w v nroots b E). Qed.
Print Assumptions C43_values_picked.
(** C43: the number asked for is returned exactly if that many values lie below the fixed threshold; raising the threshold to the
    [nroots]-th smallest imaginary part never supplies the missing ones. *)
Theorem C43_enough_iff :
  forall (F : fld) (ltb : F -> F -> bool) argsort is_zero tol w v nroots b ws cols idx, strict_order ltb -> sorts ltb argsort -> 0 < nroots ->
  pick_real F ltb argsort is_zero tol w v nroots b = Ok (ws, cols, idx) ->
  (Nat.min nroots (length w) <= length ws <-> Nat.min nroots (length w) <= length (filter (fun z => ltb (absv F ltb (snd z)) tol) w)).
Proof. intros F ltb argsort is_zero tol w v nroots b ws cols idx Ho Hs Hn E. exact (enough_iff is_zero Ho Hs tol w v b Hn E). Qed.
Print Assumptions C43_enough_iff.
(** C43, refuted: of two complex conjugate values none is returned. *)
Theorem C43_enough_refuted : exists w v, length w = 2 /\ pick3 w v 1 [] = Ok ([], [], []).
Proof. exists [(qi 1, qi 1); (qi 1, qi (-1))], [[(qi 1, qi 0)]; [(qi 0, qi 1)]]. split; [reflexivity|vm_compute; reflexivity]. Qed.
Print Assumptions C43_enough_refuted.
Example C43_hypotheses : strict_order qlt /\ sorts qlt order.
Proof. split; [apply qlt_order|apply order_sorts]. Qed.
Example C43_picked : match pick3 [(qi 3, qi 0); (qi 2, qi 5); (qi 1, qi 0)] [[(qi 1, qi 0)]; [(qi 2, qi 0)]; [(qi 3, qi 0)]] 2 [] with Ok (ws, cols, idx) => Some (map Qcanon.this ws, idx) | Err _ => None end
  = Some ([QArith_base.Qmake 1 1; QArith_base.Qmake 3 1], [2; 0]).
Proof. vm_compute. reflexivity. Qed.
