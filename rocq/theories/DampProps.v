(** Property theorems for damping and DIIS (C24-C27, C53). *)
From Verif Require Import Base Alg DampModel DampSpec DampProofs DampThms.
Local Open Scope nat_scope.
Local Open Scope list_scope.

(** C24: after any history of calls at most [space] vectors (at least one) and one transient vector are held, and every
    cached inner product between stored errors is that of the errors stored now. *)
Theorem C24_memory_and_cache : forall (K : rng) gtb nonzero lin_solve space min_space (factor : K) h s vs,
  diis_run gtb nonzero lin_solve space min_space factor (diis_init K) h = Ok (s, vs) ->
  length (arrays s) <= S (Nat.max space 1) /\ length (errors s) <= Nat.max space 1 /\
  forall i j x ei ej, dget pair_eq_dec (i, j) (cache s) = Some x -> dget Z.eq_dec i (errors s) = Some ei ->
    dget Z.eq_dec j (errors s) = Some ej -> x = vdot ei ej.
Proof. exact diis_memory. Qed.
Print Assumptions C24_memory_and_cache.

(** C24: the dictionaries, overwritten counters and cached norms are unobservable: any history of calls returns (or raises)
    what textbook DIIS does, which keeps a plain list of pairs and computes every inner product afresh. *)
Theorem C24_is_textbook_diis : forall (K : rng) gtb nonzero lin_solve space min_space (factor : K) h,
  match diis_run gtb nonzero lin_solve space min_space factor (diis_init K) h with Ok (_, vs) => Ok vs | Err e => Err e end =
  book_run gtb nonzero lin_solve space min_space factor (mkb None []) h.
Proof. exact diis_is_textbook. Qed.
Print Assumptions C24_is_textbook_diis.

(** C24: after a reset, whatever was done before, the object behaves like a new one. *)
Theorem C24_reset_starts_again : forall (K : rng) gtb nonzero lin_solve space min_space (factor : K) (s : diis K) h,
  match diis_run gtb nonzero lin_solve space min_space factor (diis_reset s) h with Ok (_, vs) => Ok vs | Err e => Err e end =
  book_run gtb nonzero lin_solve space min_space factor (mkb None []) h.
Proof. exact (fun K gtb nonzero lin_solve space min_space factor s h => diis_is_textbook gtb nonzero lin_solve space min_space factor h). Qed.
Print Assumptions C24_reset_starts_again.

(** C24: calls raise nothing but what the linear solver raises. *)
Theorem C24_calls_total : forall (K : rng) gtb nonzero lin_solve space min_space (factor : K) h, 1 <= min_space ->
  (forall m b, exists c, lin_solve m b = Ok c) ->
  exists s vs, diis_run gtb nonzero lin_solve space min_space factor (diis_init K) h = Ok (s, vs) /\ length vs = length h.
Proof. exact diis_total. Qed.
Print Assumptions C24_calls_total.

(** C24: the pair dropped when the space is full is one of largest error, for any strict weak order on norms. *)
Theorem C24_evicts_largest_error : forall (K : rng) (gtb : K -> K -> bool), (forall x, gtb x x = false) ->
  (forall x y z, gtb z y = false -> gtb y x = false -> gtb z x = false) -> (forall x y, gtb x y = true -> gtb y x = false) ->
  forall l : list (vec K * vec K), l <> [] ->
  exists l1 p l2, l = l1 ++ p :: l2 /\ drop_worst gtb l = l1 ++ l2 /\ forall q, In q l -> gtb (sqnorm q) (sqnorm p) = false.
Proof. exact evicts_worst. Qed.
Print Assumptions C24_evicts_largest_error.

(** C24: when the methods are called directly, two extrapolations followed by a push leave a stale cached norm. *)
Theorem C24_direct_methods_refuted : exists lin_solve h s i x e, solves Z_rng lin_solve /\
  diis_ops zgtb znonzero lin_solve 6 1 0%Z (diis_init Z_rng) h = Ok s /\
  dget pair_eq_dec (i, i) (cache s) = Some x /\ dget Z.eq_dec i (errors s) = Some e /\ x <> vdot e e.
Proof.
  exists exact_solver, [DPush (K := Z_rng) [0%Z] None; DPush (K := Z_rng) [1%Z] None; DExtrapolate _; DExtrapolate _; DPush (K := Z_rng) [6%Z] None]. do 4 eexists.
  split; [exact exact_solver_solves|]. split; [vm_compute; reflexivity|]. split; [instantiate (2 := 1%Z); reflexivity|].
  split; [reflexivity|]. vm_compute. discriminate.
Qed.
Print Assumptions C24_direct_methods_refuted.

Example C24_case : exists s, diis_run zgtb znonzero exact_solver 2 1 0%Z (diis_init Z_rng)
    [([0%Z; 0%Z], None); ([2%Z; 0%Z], None); ([3%Z; 1%Z], None); ([3%Z; 1%Z], None)] =
  Ok (s, [[0%Z; 0%Z]; [2%Z; 0%Z]; [3%Z; 1%Z]; [3%Z; 1%Z]]) /\ length (arrays s) = 3 /\ length (errors s) = 2.
Proof. eexists. split; [vm_compute; reflexivity|]. split; reflexivity. Qed.

(** C25: with a solver that satisfies its equations, every value returned is a combination, with coefficients summing to one,
    of the vectors passed in so far. *)
Theorem C25_affine_combination : forall (K : rng) gtb nonzero lin_solve space min_space (factor : K), solves K lin_solve ->
  forall n h s vs, Forall (fun p => length (fst p) = n) h ->
  diis_run gtb nonzero lin_solve space min_space factor (diis_init K) h = Ok (s, vs) ->
  forall k v, nth_error vs k = Some v -> affine n (map fst (firstn (S k) h)) v.
Proof. exact diis_affine. Qed.
Print Assumptions C25_affine_combination.

(** C25: hence a vector that is the only input is returned unchanged. *)
Theorem C25_fixed_point : forall (K : rng) n (x : vec K) l y, length x = n -> (forall z, In z l -> z = x) -> affine n l y -> y = x.
Proof. exact affine_fixed. Qed.
Print Assumptions C25_fixed_point.

Example C25_case : solves Z_rng exact_solver /\ exists s vs,
  diis_run zgtb znonzero exact_solver 6 1 0%Z (diis_init Z_rng) [([0%Z], None); ([1%Z], None); ([3%Z], None)] = Ok (s, vs) /\
  nth_error vs 2 = Some [(-1)%Z].
Proof. split; [exact exact_solver_solves|]. do 2 eexists. split; vm_compute; reflexivity. Qed.

(** C53: the coefficients solve the least-squares problem: any other combination of the stored errors with coefficients
    summing to one has a squared norm larger by the squared norm of the difference. *)
Theorem C53_coefficients_optimal : forall (K : rng) n (l : list (vec K * vec K)) c, Forall (fun p => length (snd p) = n) l ->
  length c = length (border K (gram l) (length l)) -> mat_vec K (border K (gram l) (length l)) c = residual K (length l) ->
  let cs := firstn (length l) c in
  rsum cs = r1 /\ forall ds, length ds = length l -> rsum ds = r1 ->
  let e d := lincomb n d (map snd l) in
  vdot (e ds) (e ds) = radd (vdot (e cs) (e cs)) (vdot (e (zipw rsub ds cs)) (e (zipw rsub ds cs))).
Proof. exact coefficients_optimal. Qed.
Print Assumptions C53_coefficients_optimal.
Example C53_case : let l : list (vec Z_rng * vec Z_rng) := [([0%Z], [1%Z]); ([0%Z], [2%Z])] in
  exists c, exact_solver (border Z_rng (gram l) 2) (residual Z_rng 2) = Ok c.
Proof. eexists. vm_compute. reflexivity. Qed.

(** C26: the first vector passed in is returned.  Missing: later vectors below the minimum space, for which it is false. *)
Theorem C26_first_call_partial : forall (K : rng) gtb nonzero lin_solve space min_space (factor : K) x e, 1 <= min_space ->
  exists s, diis_run gtb nonzero lin_solve space min_space factor (diis_init K) [(x, e)] = Ok (s, [x]).
Proof. exact (fun K gtb nonzero lin_solve space min_space factor x e H => @stuck_below_min K gtb nonzero lin_solve space min_space factor x e [] H). Qed.
Print Assumptions C26_first_call_partial.

(** C26: below the minimum space every call returns the very first vector. *)
Theorem C26_returns_first_vector : forall (K : rng) gtb nonzero lin_solve space min_space (factor : K) x e h, length h < min_space ->
  exists s, diis_run gtb nonzero lin_solve space min_space factor (diis_init K) ((x, e) :: h) = Ok (s, map (fun _ => x) ((x, e) :: h)).
Proof. exact stuck_below_min. Qed.
Print Assumptions C26_returns_first_vector.
Theorem C26_passes_newest_refuted : exists h s vs, diis_run zgtb znonzero exact_solver 6 2 0%Z (diis_init Z_rng) h = Ok (s, vs) /\
  length (errors s) < 2 /\ vs <> map fst h.
Proof.
  exists [([0%Z], None); ([1%Z], None)]. do 2 eexists. split; [vm_compute; reflexivity|]. split; [vm_compute; lia|]. vm_compute. discriminate.
Qed.
Print Assumptions C26_passes_newest_refuted.
(** C26: with space one the accelerator never moves off the first vector. *)
Theorem C26_space_one_never_moves : forall (K : rng) gtb nonzero lin_solve space min_space (factor : K) x e h, space <= 1 -> 1 <= min_space ->
  exists s, diis_run gtb nonzero lin_solve space min_space factor (diis_init K) ((x, e) :: h) = Ok (s, map (fun _ => x) ((x, e) :: h)).
Proof. exact stuck_space_one. Qed.
Print Assumptions C26_space_one_never_moves.

(** C27: linear damping mixes each vector with the previous input and holds at most two vectors. *)
Theorem C27_linear_damping : forall (K : rng) factor (l : list (vec K)),
  exists s, linear_run factor (linear_init K) l = Ok (s, damped factor l) /\ length (larrays s) <= 2.
Proof. exact linear_damping. Qed.
Print Assumptions C27_linear_damping.
Theorem C27_reset_starts_again : forall (K : rng) factor (s : linear K) l,
  exists s', linear_run factor (linear_reset s) l = Ok (s', damped factor l) /\ length (larrays s') <= 2.
Proof. exact (fun K factor s l => linear_damping factor l). Qed.
Print Assumptions C27_reset_starts_again.
Example C27_case : exists s, linear_run (K := Z_rng) 2%Z (linear_init Z_rng) [[1%Z]; [5%Z]; [6%Z]] = Ok (s, [[1%Z]; [-3]%Z; [4%Z]]).
Proof. eexists. vm_compute. reflexivity. Qed.
