(** The Lagrangian of a coupled-cluster calculation, in formulas: E + sum_k <lambda_k, residual_k>. *)
From Coq Require Import List ZArith String.
From Verif Require Import Base Alg ArrModel EinsumModel CgModel CgSpec CgFormSpec CgNames CgTables2 CgRelSpec.
Import ListNotations.
Local Open Scope list_scope. Local Open Scope nat_scope.

(** Labels of indices. *)
Local Notation i := 0 (only parsing). Local Notation j := 1 (only parsing). Local Notation k := 2 (only parsing).
Local Notation l := 3 (only parsing).
Local Notation a := 10 (only parsing). Local Notation b := 11 (only parsing). Local Notation c := 12 (only parsing).
Local Notation x := 30 (only parsing).

(** A number epsilon, and a direction for every kind of amplitudes. *)
Definition n_epsilon : ref := xI xH.
Definition direction (t : ref) : ref := (t + 1000000)%positive.
Definition amplitudes : list (ref * list nat) := [(n_t1, [i; a]); (n_t2, [i; j; a; b]); (n_s1, [x]); (n_u11, [x; i; a])].

(** The given tensors of a general calculation together with epsilon and the directions; a direction has the
    permutational symmetries of its amplitudes. *)
Definition directed_basis : list (ref * list cls) :=
  general_basis ++ (n_epsilon, []) :: map (fun t => (direction (fst t), map kind (snd t))) amplitudes.
Definition directed_symmetries : symmetries :=
  general_basis_symmetries ++
  map (fun s => (direction (fst s), snd s)) (filter (fun s => existsb (Pos.eqb (fst s)) (map fst amplitudes)) general_basis_symmetries).

(** Arguments at displaced amplitudes: t + epsilon * direction; all other arguments as they are. *)
Definition displaced : table :=
  map (fun t => (fst t, (snd t, [mono 1 1 [t]; mono 1 1 [(n_epsilon, []); (direction (fst t), snd t)]]))) amplitudes ++ general.

(** In the following two, [nm 1] are the results of energy and [nm 2] those of update_amps, at displaced
    amplitudes, and [nm 3] are the results of update_lams, at the given amplitudes. *)
Definition lagrangian (singles : bool) : formula :=
  mono 1 1 [(nm 1 n_e_cc, [])] ::
  (if singles then [mono 1 1 [(nm 0 n_l1, [a; i]); (nm 2 n_t1new, [i; a])]] else []) ++
  [mono 1 4 [(nm 0 n_l2, [a; b; i; j]); (nm 2 n_t2new, [i; j; a; b])]].
Definition along_direction (singles : bool) : formula :=
  (if singles then [mono 1 1 [(nm 3 n_l1new, [a; i]); (nm 0 (direction n_t1), [i; a])]] else []) ++
  [mono 1 4 [(nm 3 n_l2new, [a; b; i; j]); (nm 0 (direction n_t2), [i; j; a; b])]].

(** Arguments of which only the named ones differ from zero. *)
Definition only (xs : list ref) (T : table) : table := filter (fun r => existsb (Pos.eqb (fst r)) xs) T.

(** Called with the arguments of one table, a function returns the results of another one. *)
Definition returns (F : fld) sz (eB : env F) (p : prog) (T Tout : table) : Prop :=
  forall method path, path_ok path -> forall e, called_with sz eB T p e ->
  exists r, run method path sz p e = Ok r /\ forall k x cs, nth_error (p_out p) k = Some (x, cs) -> given_by sz id_blocks Tout eB x cs (entry F r k).

(** Results: all zero. *)
Definition all_zero : table := [].
(** l2new_abij = 1/2 sum_kl l2_abkl v_ijkl and all other results zero. *)
Definition half_oooo : table := [(n_l2new, ([a; b; i; j], [mono 1 2 [(n_l2, [a; b; k; l]); (n_v'oooo, [i; j; k; l])]]))].
(** t1new_ia = f_ia, s1new_x = sum_ia f_ia u11_xia and all other results zero. *)
Definition boson_residual : table :=
  [(n_t1new, ([i; a], [mono 1 1 [(n_f'ov, [i; a])]])); (n_s1new, ([x], [mono 1 1 [(n_f'ov, [i; a]); (n_u11, [x; i; a])]]))].
(** l1new_ai = f_ia, lu11new_xai = 2 ls1_x f_ia and all other results zero. *)
Definition twice_product : table :=
  [(n_l1new, ([a; i], [mono 1 1 [(n_f'ov, [i; a])]])); (n_lu11new, ([x; a; i], [mono 2 1 [(n_ls1, [x]); (n_f'ov, [i; a])]]))].
