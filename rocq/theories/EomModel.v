(** Model of the equation-of-motion solvers: ebcc/eom/base.py, reom.py, geom.py and ueom.py: conversion between amplitudes and
    vectors, the diagonal and the starting guesses.  The matrix-vector product is generated code: see
    CgEomSpec.v. *)
From Coq Require Import String.
From Verif Require Import Base Alg ArrModel PermModel TensorModel EinsumModel SpaceModel AnsatzModel VecModel CcModel.
Set Implicit Arguments.
Local Open Scope nat_scope.
Local Open Scope list_scope.
Local Open Scope py_scope.

Inductive sector := IP | EA | EE.
Definition which_of (x : sector) : which := match x with IP => Wip | EA => Wea | EE => Wee end.

(** The two loops at the end of every conversion, e.g. reom.py:86-92: any bosonic or coupling amplitude is refused. *)
Definition no_bosons (a : ansatz) (x : sector) : result unit :=
  bs <- bosonic_cluster_ranks a (which_of x) ;;
  match bs with
  | [] => cs <- coupling_cluster_ranks a (which_of x) ;; match cs with [] => Ok tt | _ => Err ModelNotImplemented end
  | _ => Err ModelNotImplemented
  end.

(** reom.py:79-84, 106-115: one amplitude of the restricted class (= 173-178, 200-209 for EA and 267-272, 294-303 for EE). *)
Definition r_block (sp : space) (e : entry) : result (pystr * block) :=
  let '(name, key, n) := e in s <- key_shape sp key ;; Ok (name, BArr (Raw (prodn s) s)).
(** geom.py:79-84, 106-117: the general class packs the amplitude along equal letters of its key
    (= 175-180, 202-213 for EA and 271-276, 298-309 for EE). *)
Definition g_block (sp : space) (e : entry) : result (pystr * block) :=
  let '(name, key, n) := e in
  sizes <- mapM (fun k => m <- sp_size sp k ;; Ok (k, m)) (dedup key) ;;
  m <- get_compressed_size key sizes ;;
  s <- key_shape sp key ;; Ok (name, BArr (Packed key m s)).
(** ueom.py:84-90, 112-136: the unrestricted class, for the unique spin strings; in the charged sectors these have one
    letter less (= 199-205, 227-251 for EA and 314-320, 342-366 for EE). *)
Definition charged (x : sector) : bool := match x with EE => false | _ => true end.
Definition u_spins (x : sector) (n : nat) : list pystr := generate_spin_combinations n (charged x) true.
Definition u_block (x : sector) (sa sb : space) (sizes : dict pystr nat) (e : entry) : result (pystr * block) :=
  let '(name, key, n) := e in
  cs <- mapM (u_packed sa sb sizes key) (u_spins x n) ;; Ok (name, BSpin cs).

(** The layouts.  [amplitudes_to_vector] does not compute sizes; every letter of a key has one, so that the layout is never
    the reason for an error there (lemmas r_block_ok, g_block_ok, u_block_ok). *)
Definition r_eom_layout (a : ansatz) (sp : space) (x : sector) : result layout :=
  fs <- fermionic_cluster_ranks a true (which_of x) ;; mapM (r_block sp) fs.
Definition g_eom_layout (a : ansatz) (sp : space) (x : sector) : result layout :=
  fs <- fermionic_cluster_ranks a false (which_of x) ;; mapM (g_block sp) fs.
Definition u_eom_layout (a : ansatz) (sa sb : space) (x : sector) : result layout :=
  sizes <- u_sizes sa sb ;; fs <- fermionic_cluster_ranks a false (which_of x) ;; mapM (u_block x sa sb sizes) fs.

(** ueom.py:127-129: [max(spin[:n].count(s) for s in set(spin[:n]))]; [max] of nothing is an error, which needs n = 0. *)
Definition u_factor (n : nat) (spin : pystr) : nat :=
  fold_right Nat.max 0 (map (fun s => count (firstn n spin) s) (dedup (firstn n spin))).

Section Vectors.
  Variable K : rng.

  (** [amplitudes_to_vector]: reom.py:69-94, 163-188, 257-282; geom.py:69-93, 165-189, 261-285; ueom.py:72-99, 187-214, 302-329. *)
  Definition eom_to_vector (lay : result layout) (a : ansatz) (x : sector) (amps : dict pystr (tval K)) : result (list K) :=
    l <- lay ;;
    vs <- mapM (write_block K amps) l ;;
    _ <- no_bosons a x ;;
    match concat vs with [] => Err ValueError | c => Ok (concat c) end.
  Definition r_eom_to_vector a sp x := eom_to_vector (r_eom_layout a sp x) a x.
  Definition g_eom_to_vector a sp x := eom_to_vector (g_eom_layout a sp x) a x.
  Definition u_eom_to_vector a sa sb x := eom_to_vector (u_eom_layout a sa sb x) a x.

  (** [vector_to_amplitudes]: reom.py:95-123, 189-217, 283-311; geom.py:95-125, 191-221, 287-317.  A vector with entries left
      over is accepted. *)
  Definition rg_eom_from_vector (lay : result layout) (a : ansatz) (x : sector) (v : list K) : result (dict pystr (tval K)) :=
    l <- lay ;; ri <- read_blocks K l v 0 [] ;; _ <- no_bosons a x ;; Ok (fst ri).
  Definition r_eom_from_vector a sp x := rg_eom_from_vector (r_eom_layout a sp x) a x.
  Definition g_eom_from_vector a sp x := rg_eom_from_vector (g_eom_layout a sp x) a x.
End Vectors.

Section Field.
  Variable F : fld.
  (** Division of an array by an integer. *)
  Definition divide_by (f : nat) (t : arr F) : arr F := map_arr (fun v => fdiv v (rnat f)) t.
  (** ueom.py:120-136: the loop over spins of one amplitude, with the division by the factor. *)
  Fixpoint u_read_spins (n : nat) (cs : list (pystr * codec)) (v : list F) (i0 : nat) (d : dict pystr (arr F))
    : result (dict pystr (arr F) * nat) :=
    match cs with
    | [] => Ok (d, i0)
    | (spin, c) :: cs' =>
        xi <- read_codec F c v i0 ;;
        u_read_spins n cs' v (snd xi) (dset pystr_eq_dec spin (divide_by (u_factor n spin) (fst xi)) d)
    end.
  Fixpoint u_read (x : sector) (sa sb : space) (sizes : dict pystr nat) (fs : list entry) (v : list F) (i0 : nat) (amps : dict pystr (tval F))
    : result (dict pystr (tval F) * nat) :=
    match fs with
    | [] => Ok (amps, i0)
    | (name, key, n) :: fs' =>
        cs <- mapM (u_packed sa sb sizes key) (u_spins x n) ;;
        di <- u_read_spins n cs v i0 [] ;;
        u_read x sa sb sizes fs' v (snd di) (dset pystr_eq_dec name (VSpin (fst di)) amps)
    end.
  (** ueom.py:101-144, 216-259, 331-374 *)
  Definition u_eom_from_vector (a : ansatz) (sa sb : space) (x : sector) (v : list F) : result (dict pystr (tval F)) :=
    sizes <- u_sizes sa sb ;;
    fs <- fermionic_cluster_ranks a false (which_of x) ;;
    ri <- u_read x sa sb sizes fs v 0 [] ;;
    _ <- no_bosons a x ;;
    if snd ri =? length v then Ok (fst ri) else Err AssertionError.

  (** The diagonal.  reom.py:60-62, 154-156, 248-250: the sign in front of [energy_sum] in the restricted class ... *)
  Definition r_minus (x : sector) : bool := match x with IP => false | EA => false | EE => true end.
  (** ... geom.py:60-62, 156-158, 252-254: the general class ... *)
  Definition g_minus (x : sector) : bool := match x with IP => false | EA => true | EE => true end.
  (** ... and ueom.py:60-66, 175-181, 290-296: the unrestricted class. *)
  Definition u_minus (x : sector) : bool := match x with IP => false | EA => true | EE => false end.
  Definition negated (m : bool) (t : arr F) : arr F := if m then map_arr ropp t else t.

  (** The check for bosonic amplitudes only: reom.py:64-65 etc. *)
  Definition no_bosonic (a : ansatz) (x : sector) : result unit :=
    bs <- bosonic_cluster_ranks a (which_of x) ;; match bs with [] => Ok tt | _ => Err ModelNotImplemented end.
  (** reom.py:48-67, 142-161, 236-255; geom.py:48-67, 144-163, 240-259. *)
  Definition rg_parts (c : cc F) (rspin minus : bool) (x : sector) : result (dict pystr (tval F)) :=
    fs <- fermionic_cluster_ranks (cc_ansatz c) rspin (which_of x) ;;
    set_all (F := F) fname (arr_of (fun '(_, key, n) => D <- energy_sum c key [] ;; Ok (negated minus D))) fs [].
  Definition r_diag (c : cc F) (x : sector) : result (list F) :=
    parts <- rg_parts c true (r_minus x) x ;; _ <- no_bosonic (cc_ansatz c) x ;; r_eom_to_vector F (cc_ansatz c) (cc_space c) x parts.
  Definition g_diag (c : cc F) (x : sector) : result (list F) :=
    parts <- rg_parts c false (g_minus x) x ;; _ <- no_bosonic (cc_ansatz c) x ;; g_eom_to_vector F (cc_ansatz c) (cc_space c) x parts.
  (** ueom.py:48-70, 163-185, 278-300: charged sectors fill in every spin string, the neutral one the unique strings. *)
  Definition u_part (c : ucc F) (x : sector) (e : entry) : result (tval F) :=
    let '(_, key, n) := e in
    d <- foldM (fun d comb => D <- u_energy_sum c key comb [] ;; Ok (dset pystr_eq_dec comb (negated (u_minus x) D) d))
               (generate_spin_combinations n (charged x) (negb (charged x))) [] ;;
    Ok (VSpin d).
  Definition u_parts (c : ucc F) (x : sector) : result (dict pystr (tval F)) :=
    fs <- fermionic_cluster_ranks (u_ansatz c) false (which_of x) ;; set_all (F := F) fname (u_part c x) fs [].
  Definition u_diag (c : ucc F) (x : sector) : result (list F) :=
    parts <- u_parts c x ;; _ <- no_bosonic (u_ansatz c) x ;; u_eom_to_vector F (u_ansatz c) (u_alpha c) (u_beta c) x parts.
End Field.

(** * Starting guesses. *)
Section Guesses.
  Variable F : fld.
  Variable ltb : F -> F -> bool.
  (** util/misc.py:194-207 [argsort]: [sorted(range(size), key=values.__getitem__)], a stable sort. *)
  Fixpoint insert_by (key : nat -> F) (i : nat) (l : list nat) : list nat :=
    match l with [] => [i] | j :: l' => if ltb (key j) (key i) then j :: insert_by key i l' else i :: l end.
  Definition argsort_by (vals : list F) : list nat := fold_right (insert_by (fun i => nth i vals r0)) [] (seq 0 (length vals)).
  (** [np.abs] *)
  Definition abs (v : F) : F := if ltb v r0 then ropp v else v.
  (** reom.py:35-42, 129-136, 223-230 (= geom.py, ueom.py): the sorting key, absolute values for the charged sectors.
      [koopmans] is None when the option is off, otherwise the number of entries of the single-excitation amplitude. *)
  Definition argsort_guesses (x : sector) (koopmans : option nat) (diag : list F) : list nat :=
    let d := match koopmans with None => diag | Some n1 => firstn n1 diag end in
    argsort_by (if charged x then map abs d else d).
  (** [np.eye(1, m, k)[0]] *)
  Definition unit_vector (m k : nat) : list F := map (fun i => if i =? k then r1 else r0) (seq 0 m).
  (** base.py:240-258 [get_guesses]; [np.stack] of nothing raises ValueError. *)
  Definition get_guesses (x : sector) (koopmans : option nat) (nroots : nat) (diag : list F) : result (list (list F)) :=
    match map (unit_vector (length diag)) (firstn (Nat.min nroots (length diag)) (argsort_guesses x koopmans diag)) with
    | [] => Err ValueError
    | g => Ok g
    end.
End Guesses.
