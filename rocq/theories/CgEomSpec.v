(** Vectors of the equation-of-motion methods: their tensors, inner products, and those of restricted, unrestricted and general
    calculations in terms of each other. *)
From Coq Require Import List ZArith String.
From Verif Require Import Base Alg ArrModel EinsumModel CgModel CgSpec CgFormSpec CgNames CgTables CgTables2 CgRelSpec CgLagSpec CgChainSpec EomModel.
Import ListNotations.
Local Open Scope list_scope. Local Open Scope nat_scope.

(** Labels of indices. *)
Local Notation i := 0 (only parsing). Local Notation j := 1 (only parsing). Local Notation a := 10 (only parsing). Local Notation b := 11 (only parsing).
Local Notation iA := 40 (only parsing). Local Notation jA := 41 (only parsing). Local Notation aA := 50 (only parsing). Local Notation bA := 51 (only parsing).
Local Notation iB := 60 (only parsing). Local Notation jB := 61 (only parsing). Local Notation aB := 70 (only parsing). Local Notation bB := 71 (only parsing).

Inductive spin_type := Restricted | Unrestricted | General.
(** The given tensors of a calculation, with their symmetries and as arguments. *)
Definition given (s : spin_type) : list (ref * list cls) := match s with Restricted => spatial | Unrestricted => spin_blocks | General => general_basis end.
Definition given_symmetries (s : spin_type) : symmetries := match s with Restricted => spatial_symmetries | Unrestricted => spin_blocks_symmetries | General => general_basis_symmetries end.
Definition given_arguments (s : spin_type) : table := match s with Restricted => restricted | Unrestricted => unrestricted | General => general end.

(** The tensors of a vector and their indices (neutral excitations exist for general orbitals only). *)
Definition vector (s : spin_type) (x : sector) : list (ref * list nat) :=
  match s, x with
  | Restricted, IP => [(n_r1, [i]); (n_r2, [i; j; a])]
  | Restricted, EA => [(n_r1, [a]); (n_r2, [a; b; i])]
  | Unrestricted, IP => [(n_r1'a, [iA]); (n_r1'b, [iB]); (n_r2'aaa, [iA; jA; aA]); (n_r2'aba, [iA; iB; aA]); (n_r2'bab, [iB; iA; aB]); (n_r2'bbb, [iB; jB; aB])]
  | Unrestricted, EA => [(n_r1'a, [aA]); (n_r1'b, [aB]); (n_r2'aaa, [aA; bA; iA]); (n_r2'aba, [aA; aB; iA]); (n_r2'bab, [aB; aA; iB]); (n_r2'bbb, [aB; bB; iB])]
  | General, IP => [(n_r1, [i]); (n_r2, [i; j; a])]
  | General, EA => [(n_r1, [a]); (n_r2, [a; b; i])]
  | General, EE => [(n_r1, [i; a]); (n_r2, [i; j; a; b])]
  | _, EE => []
  end.
(** Vectors are antisymmetric in indices of equal kind and spin, except for restricted orbitals. *)
Definition vector_symmetries (s : spin_type) (x : sector) : symmetries :=
  match s, x with
  | Restricted, _ => []
  | Unrestricted, _ => [(n_r2'aaa, [([1; 0; 2], true)]); (n_r2'bbb, [([1; 0; 2], true)])]
  | General, EE => [(n_r2, [([1; 0; 2; 3], true); ([0; 1; 3; 2], true); ([1; 0; 3; 2], false)])]
  | General, _ => [(n_r2, [([1; 0; 2], true)])]
  end.
(** The result that corresponds to a tensor of the vector. *)
Definition new (t : ref) : ref :=
  match find (fun p => Pos.eqb (fst p) t) [(n_r1, n_r1new); (n_r2, n_r2new); (n_r1'a, n_r1new'a); (n_r1'b, n_r1new'b);
    (n_r2'aaa, n_r2new'aaa); (n_r2'aba, n_r2new'aba); (n_r2'bab, n_r2new'bab); (n_r2'bbb, n_r2new'bbb)] with
  | Some p => snd p | None => t end.

(** Two vectors and a number are given besides the calculation: the second vector has the names [direction t]. *)
Definition with_vector (s : spin_type) (x : sector) : list (ref * list cls) := given s ++ map (fun t => (fst t, map kind (snd t))) (vector s x).
Definition with_vector_symmetries (s : spin_type) (x : sector) : symmetries := given_symmetries s ++ vector_symmetries s x.
Definition with_vectors (s : spin_type) (x : sector) : list (ref * list cls) :=
  with_vector s x ++ (n_epsilon, []) :: map (fun t => (direction (fst t), map kind (snd t))) (vector s x).
Definition with_vectors_symmetries (s : spin_type) (x : sector) : symmetries :=
  with_vector_symmetries s x ++ map (fun t => (direction (fst t), snd t)) (vector_symmetries s x).
(** Arguments: the first vector, the second one, and the first plus epsilon times the second. *)
Definition first_vector (s : spin_type) (x : sector) : table := map (fun t => (fst t, (snd t, [mono 1 1 [t]]))) (vector s x) ++ given_arguments s.
Definition second_vector (s : spin_type) (x : sector) : table := map (fun t => (fst t, (snd t, [mono 1 1 [(direction (fst t), snd t)]]))) (vector s x) ++ given_arguments s.
Definition combination (s : spin_type) (x : sector) : table :=
  map (fun t => (fst t, (snd t, [mono 1 1 [t]; mono 1 1 [(n_epsilon, []); (direction (fst t), snd t)]]))) (vector s x) ++ given_arguments s.

(** Inner product of a vector, whose tensors have the names [v t], and results, with the names [w (new t)].  Every pair of
    antisymmetric indices is counted once; unrestricted vectors of equal spins are halved, so that every element counts.
    For restricted orbitals the sum over spins is 2 v_ija w_ija - v_ija w_jia. *)
Definition inner_product (s : spin_type) (x : sector) (v w : ref -> ref) : formula :=
  match s, x with
  | Restricted, IP => [mono 1 1 [(v n_r1, [i]); (w n_r1new, [i])]; mono 2 1 [(v n_r2, [i; j; a]); (w n_r2new, [i; j; a])]; mono (-1) 1 [(v n_r2, [i; j; a]); (w n_r2new, [j; i; a])]]
  | Restricted, EA => [mono 1 1 [(v n_r1, [a]); (w n_r1new, [a])]; mono 2 1 [(v n_r2, [a; b; i]); (w n_r2new, [a; b; i])]; mono (-1) 1 [(v n_r2, [a; b; i]); (w n_r2new, [b; a; i])]]
  | Unrestricted, _ => map (fun t => mono 1 1 [(v (fst t), snd t); (w (new (fst t)), snd t)]) (vector Unrestricted x)
  | General, IP => [mono 1 1 [(v n_r1, [i]); (w n_r1new, [i])]; mono 1 2 [(v n_r2, [i; j; a]); (w n_r2new, [i; j; a])]]
  | General, EA => [mono 1 1 [(v n_r1, [a]); (w n_r1new, [a])]; mono 1 2 [(v n_r2, [a; b; i]); (w n_r2new, [a; b; i])]]
  | General, EE => [mono 1 1 [(v n_r1, [i; a]); (w n_r1new, [i; a])]; mono 1 4 [(v n_r2, [i; j; a; b]); (w n_r2new, [i; j; a; b])]]
  | Restricted, EE => []
  end.

(** ** Vectors of one kind of calculation in terms of another *)
(** A restricted vector as an unrestricted one, for both spins; [f] = 2 for vectors and 1 for products. *)
Definition closed_shell_vector (x : sector) (f : positive) (r1 r2 r1a r1b aaa aba bab bbb : ref) : table :=
  match x with
  | IP => [(r1a, ([i], [mono 1 1 [(r1, [i])]])); (r1b, ([i], [mono 1 1 [(r1, [i])]]));
           (aaa, ([i; j; a], [mono 1 f [(r2, [i; j; a])]; mono (-1) f [(r2, [j; i; a])]])); (bbb, ([i; j; a], [mono 1 f [(r2, [i; j; a])]; mono (-1) f [(r2, [j; i; a])]]));
           (aba, ([i; j; a], [mono 1 1 [(r2, [i; j; a])]])); (bab, ([i; j; a], [mono 1 1 [(r2, [i; j; a])]]))]
  | EA => [(r1a, ([a], [mono 1 1 [(r1, [a])]])); (r1b, ([a], [mono 1 1 [(r1, [a])]]));
           (aaa, ([a; b; i], [mono 1 f [(r2, [a; b; i])]; mono (-1) f [(r2, [b; a; i])]])); (bbb, ([a; b; i], [mono 1 f [(r2, [a; b; i])]; mono (-1) f [(r2, [b; a; i])]]));
           (aba, ([a; b; i], [mono 1 1 [(r2, [a; b; i])]])); (bab, ([a; b; i], [mono 1 1 [(r2, [a; b; i])]]))]
  | EE => []
  end.
Definition closed_shell_arguments (x : sector) : table := closed_shell_vector x 2 n_r1 n_r2 n_r1'a n_r1'b n_r2'aaa n_r2'aba n_r2'bab n_r2'bbb ++ closed_shell.
Definition closed_shell_products (x : sector) : table := closed_shell_vector x 1 n_r1new n_r2new n_r1new'a n_r1new'b n_r2new'aaa n_r2new'aba n_r2new'bab n_r2new'bbb.
(** An unrestricted vector as one of spin orbitals: blocks that are not listed are zero; [f] = 2 for vectors and 1 for products. *)
Definition spin_orbital_vector (x : sector) (f : Z) (r1 r2 r1a r1b aaa aba bab bbb : ref) : table :=
  match x with
  | IP => [(r1, ([iA], [mono 1 1 [(r1a, [iA])]])); (r1, ([iB], [mono 1 1 [(r1b, [iB])]]));
           (r2, ([iA; jA; aA], [mono f 1 [(aaa, [iA; jA; aA])]])); (r2, ([iB; jB; aB], [mono f 1 [(bbb, [iB; jB; aB])]]));
           (r2, ([iA; iB; aA], [mono 1 1 [(aba, [iA; iB; aA])]])); (r2, ([iB; iA; aA], [mono (-1) 1 [(aba, [iA; iB; aA])]]));
           (r2, ([iB; iA; aB], [mono 1 1 [(bab, [iB; iA; aB])]])); (r2, ([iA; iB; aB], [mono (-1) 1 [(bab, [iB; iA; aB])]]))]
  | EA => [(r1, ([aA], [mono 1 1 [(r1a, [aA])]])); (r1, ([aB], [mono 1 1 [(r1b, [aB])]]));
           (r2, ([aA; bA; iA], [mono f 1 [(aaa, [aA; bA; iA])]])); (r2, ([aB; bB; iB], [mono f 1 [(bbb, [aB; bB; iB])]]));
           (r2, ([aA; aB; iA], [mono 1 1 [(aba, [aA; aB; iA])]])); (r2, ([aB; aA; iA], [mono (-1) 1 [(aba, [aA; aB; iA])]]));
           (r2, ([aB; aA; iB], [mono 1 1 [(bab, [aB; aA; iB])]])); (r2, ([aA; aB; iB], [mono (-1) 1 [(bab, [aB; aA; iB])]]))]
  | EE => []
  end.
Definition spin_orbital_arguments (x : sector) : table := spin_orbital_vector x 2 n_r1 n_r2 n_r1'a n_r1'b n_r2'aaa n_r2'aba n_r2'bab n_r2'bbb ++ spin_orbital.
Definition spin_orbital_products (x : sector) : table := spin_orbital_vector x 1 n_r1new n_r2new n_r1new'a n_r1new'b n_r2new'aaa n_r2new'aba n_r2new'bab n_r2new'bbb.
(** Density fitting: the integrals in terms of the three-index ones. *)
Definition fitting (s : spin_type) : table := match s with Restricted => fitted | Unrestricted => fitted_spin | General => [] end.
(** Results of the same names. *)
Definition same_products (s : spin_type) (x : sector) : table := map (fun t => (new (fst t), (snd t, [mono 1 1 [(new (fst t), snd t)]]))) (vector s x).

Section Calls.
  Variable F : fld.
  (** A matrix-vector product [(p, q)] ([p] computes the intermediates) is called with the arguments that a table gives. *)
  Definition product_called_with sz (split : cls -> list cls) (eB : env F) (T : table) (pq : prog * prog) (e : env F) : Prop :=
    args_ok sz (product_arguments (fst pq) (snd pq)) e /\
    forall x cs, In (x, cs) (product_arguments (fst pq) (snd pq)) -> given_by sz split T eB x cs (tens F (e x)).
End Calls.

(** ** Relations *)
(** The product [g], called for the tensors [Tg], returns what [Tout] gives in terms of the results of [p], called for the tensors [Tp]. *)
Definition products_agree (B : list (ref * list cls)) (S : symmetries) (Tp : table) (p : prog * prog) (split : cls -> list cls) (Tg : table) (g : prog * prog) (Tout : table) : Prop :=
  forall (F : fld) sz, characteristic_zero F -> splits sz split -> forall method1 method2 path1 path2, path_ok path1 -> path_ok path2 ->
  forall eB : env F, symmetric sz S B eB ->
  forall e1 e2, product_called_with F sz id_blocks eB Tp p e1 -> product_called_with F sz split eB Tg g e2 ->
  exists r1 r2, product_is method1 path1 sz (fst p) (snd p) e1 r1 /\ product_is method2 path2 sz (fst g) (snd g) e2 r2 /\
    forall k x cs, nth_error (p_out (snd g)) k = Some (x, cs) -> given_by sz split Tout (results F (p_out (snd p)) r1) x cs (entry F r2 k).
(** <l, H r> = <r, H^T l>: the right product [p] of the first vector and the left product [q] of the second one. *)
Definition adjoint_products (s : spin_type) (x : sector) (T1 T2 : table) (p q : prog * prog) : Prop :=
  forall (F : fld) sz, characteristic_zero F -> forall method path, path_ok path ->
  forall eB : env F, symmetric sz (with_vectors_symmetries s x) (with_vectors s x) eB ->
  forall e1 e2, product_called_with F sz id_blocks eB T1 p e1 -> product_called_with F sz id_blocks eB T2 q e2 ->
  exists r1 r2, product_is method path sz (fst p) (snd p) e1 r1 /\ product_is method path sz (fst q) (snd q) e2 r2 /\
    let all := together [eB; results F (p_out (snd p)) r1; results F (p_out (snd q)) r2] in
    value sz all [] (inner_product s x (fun t => nm 0 (direction t)) (nm 1)) [] = value sz all [] (inner_product s x (nm 0) (nm 2)) [].
(** H (x + c y) = H x + c H y. *)
Definition linear_product (s : spin_type) (x : sector) (p : prog * prog) : Prop :=
  forall (F : fld) sz, characteristic_zero F -> forall method path, path_ok path ->
  forall eB : env F, symmetric sz (given_symmetries s) (given s) eB ->
  forall e e1 e2, product_called_with F sz id_blocks eB (combination s x) p e -> product_called_with F sz id_blocks eB (first_vector s x) p e1 -> product_called_with F sz id_blocks eB (second_vector s x) p e2 ->
  exists r r1 r2, product_is method path sz (fst p) (snd p) e r /\ product_is method path sz (fst p) (snd p) e1 r1 /\ product_is method path sz (fst p) (snd p) e2 r2 /\
    forall k y cs, nth_error (p_out (snd p)) k = Some (y, cs) -> forall idx, inb (map sz cs) idx ->
      entry F r k idx = radd (entry F r1 k idx) (rmul (tens F (eB n_epsilon) []) (entry F r2 k idx)).
(** The product of a vector is a vector: it has the same symmetries. *)
Definition product_symmetric (s : spin_type) (x : sector) (p : prog * prog) : Prop :=
  forall (F : fld) sz, characteristic_zero F -> forall method path, path_ok path ->
  forall eB : env F, symmetric sz (with_vector_symmetries s x) (with_vector s x) eB ->
  forall e, product_called_with F sz id_blocks eB (first_vector s x) p e ->
  exists r, product_is method path sz (fst p) (snd p) e r /\
    symmetric sz (map (fun y => (new (fst y), snd y)) (vector_symmetries s x)) (p_out (snd p)) (results F (p_out (snd p)) r).

(** ** The product of neutral excitations and the derivative of the residuals *)
(** The direction of displaced amplitudes is the vector; without singles, the single excitations of the vector are zero. *)
Definition direction_as_vector (singles : bool) : table :=
  (if singles then [(n_r1, ([i; a], [mono 1 1 [(direction n_t1, [i; a])]]))] else []) ++
  (n_r2, ([i; j; a; b], [mono 1 1 [(direction n_t2, [i; j; a; b])]])) :: general.
(** Residuals and the product, multiplied by arbitrary tensors l1, l2: [nm 1] are the results of update_amps at displaced amplitudes, [nm 2]
    those at the given ones, [nm 3] those of the product. *)
Definition residuals_with_l (singles : bool) : formula :=
  (if singles then [mono 1 1 [(nm 0 n_l1, [a; i]); (nm 1 n_t1new, [i; a])]] else []) ++ [mono 1 4 [(nm 0 n_l2, [a; b; i; j]); (nm 1 n_t2new, [i; j; a; b])]].
Definition product_with_l (singles : bool) : formula :=
  (if singles then [mono 1 1 [(nm 0 n_l1, [a; i]); (nm 3 n_r1new, [i; a])]] else []) ++ [mono 1 4 [(nm 0 n_l2, [a; b; i; j]); (nm 3 n_r2new, [i; j; a; b])]].
(** sum l2_abij r1_ia t1new_jb: the disconnected part of the doubles, zero where the residual of the singles is. *)
Definition disconnected_with_l (singles : bool) : formula :=
  if singles then [mono 1 1 [(nm 0 n_l2, [a; b; i; j]); (nm 0 (direction n_t1), [i; a]); (nm 2 n_t1new, [j; b])]] else [].
(** The derivative of the residuals of [p] along a direction is the product [q] of it, up to the disconnected part. *)
Definition product_is_derivative (singles : bool) (p : prog) (q : prog * prog) : Prop :=
  forall (F : fld) sz, characteristic_zero F -> forall method path, path_ok path ->
  forall eB : env F, symmetric sz directed_symmetries directed_basis eB ->
  forall e2 e3, called_with sz eB general p e2 -> product_called_with F sz id_blocks eB (direction_as_vector singles) q e3 ->
  exists r2 r3, run method path sz p e2 = Ok r2 /\ product_is method path sz (fst q) (snd q) e3 r3 /\ exists c0 l,
    forall v e1, called_with sz (with_number eB n_epsilon v) displaced p e1 ->
    exists r1, run method path sz p e1 = Ok r1 /\
      let all := together [with_number eB n_epsilon v; results F (p_out p) r1; results F (p_out p) r2; results F (p_out (snd q)) r3] in
      value sz all [] (residuals_with_l singles) [] =
        radd (radd c0 (rmul v (rsub (value sz all [] (product_with_l singles) []) (value sz all [] (disconnected_with_l singles) [])))) (rmul (rmul v v) (polynomial F l v)).

(** ** Counterexamples *)
Definition product_returns (F : fld) sz (eB : env F) (pq : prog * prog) (T Tout : table) : Prop :=
  forall method path, path_ok path -> forall e, product_called_with F sz id_blocks eB T pq e ->
  exists r, product_is method path sz (fst pq) (snd pq) e r /\ forall m x cs, nth_error (p_out (snd pq)) m = Some (x, cs) -> given_by sz id_blocks Tout eB x cs (entry F r m).
Local Notation k := 2 (only parsing). Local Notation l := 3 (only parsing). Local Notation c := 12 (only parsing). Local Notation d := 13 (only parsing).
(** What the left products of CC2 make of a vector of doubles when only t1 and v_ijkl (or v_abcd) differ from zero. *)
Definition left_of_doubles (x : sector) : table :=
  match x with
  | IP => [(n_r1new, ([i], [mono 1 2 [(n_t1, [j; a]); (n_v'oooo, [i; j; k; l]); (n_r2, [k; l; a])]])); (n_r2new, ([i; j; a], [mono 1 2 [(n_v'oooo, [i; j; k; l]); (n_r2, [k; l; a])]]))]
  | EA => [(n_r1new, ([a], [mono 1 2 [(n_t1, [i; b]); (n_v'vvvv, [a; b; c; d]); (n_r2, [c; d; i])]])); (n_r2new, ([a; b; i], [mono 1 2 [(n_v'vvvv, [a; b; c; d]); (n_r2, [c; d; i])]]))]
  | EE => [(n_r1new, ([i; a], [mono 1 2 [(n_t1, [j; b]); (n_v'oooo, [i; j; k; l]); (n_r2, [k; l; a; b])]])); (n_r2new, ([i; j; a; b], [mono 1 2 [(n_v'oooo, [i; j; k; l]); (n_r2, [k; l; a; b])]]))]
  end.
Definition integrals_of (x : sector) : ref := match x with EA => n_v'vvvv | _ => n_v'oooo end.
Definition singles_only (x : sector) : table := only [integrals_of x; n_t1; n_r1] (first_vector General x).
Definition doubles_only (x : sector) : table := only [integrals_of x; n_t1; n_r2] (first_vector General x).
(** r2new_ijab = 1/2 sum_kl v_ijkl r2_klab, all other results zero. *)
Definition half_oooo_r2 : table := [(n_r2new, ([i; j; a; b], [mono 1 2 [(n_v'oooo, [i; j; k; l]); (n_r2, [k; l; a; b])]]))].
