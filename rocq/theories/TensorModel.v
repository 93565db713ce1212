(** Model of compress_axes, decompress_axes, get_compressed_size, symmetrise,
    antisymmetrise_array and the symmetry factors (ebcc/util/permutations.py:210-268, 324-579). *)
From Verif Require Import Base Alg ArrModel PermModel.
Set Implicit Arguments.
Local Open Scope py_scope.

(** permutations.py:350-355 (and 425-430, 541-546): the substitution table. *)
Fixpoint subs_loop (s : pystr) (subs : dict nat nat) (i : nat) : dict nat nat :=
  match s with
  | [] => subs
  | c :: s' => if dmem Nat.eq_dec c subs then subs_loop s' subs i
               else subs_loop s' (dset Nat.eq_dec c (97 + i) subs) (S i)
  end.
(** permutations.py:356: ["".join([subs[s] for s in subscript])]. *)
Definition rename (s : pystr) : result pystr :=
  mapM (fun c => match dget Nat.eq_dec c (subs_loop s [] 0) with Some x => Ok x | None => Err KeyError end) s.

(** [sorted(set(subscript))]. *)
Definition sorted_set (s : pystr) : list nat := sorted_py (dedup s).

(** permutations.py:364-369: extents per character, with the consistency assertion. *)
Fixpoint sizes_loop (l : list (nat * nat)) (sizes : dict nat nat) : result (dict nat nat) :=
  match l with
  | [] => Ok sizes
  | (c, n) :: l' =>
      match dget Nat.eq_dec c sizes with
      | Some m => if m =? n then sizes_loop l' sizes else Err AssertionError
      | None => sizes_loop l' (dset Nat.eq_dec c n sizes)
      end
  end.
Definition size_of (sizes : dict nat nat) (c : nat) : result nat :=
  match dget Nat.eq_dec c sizes with Some n => Ok n | None => Err KeyError end.

(** Columns of a tuple of index arrays: the k-th index tuple. *)
Definition columns (arrs : list (list nat)) : list (list nat) :=
  map (fun k => map (fun a => nth k a 0) arrs) (seq 0 (length (hd [] arrs))).

(** permutations.py:358-373 (= 432-447): transpose so that equal characters are adjacent, then
    flatten each group.  Returns the flattened array, the sorted axes permutation and, per
    character, its extent and multiplicity. *)
Definition group_axes {A} (d : A) (sub : pystr) (a : arr A)
  : result (arr A * list nat * list (nat * nat)) :=
  let arg := argsort sub in
  b <- transpose d a arg ;;
  sub' <- permute_string sub arg ;;
  sizes <- sizes_loop (combine sub' (shp b)) [] ;;
  ns <- mapM (size_of sizes) (sorted_set sub') ;;
  let cs := map (count sub') (sorted_set sub') in
  c <- reshape b (map (fun nc => fst nc ^ snd nc) (combine ns cs)) ;;
  Ok (c, arg, combine ns cs).

(** Fancy indexing with an open mesh: [array[np.ix_( *inds )]]. *)
Definition take_mesh {A} (d : A) (a : arr A) (inds : list (list nat)) : arr A :=
  tab (map (@length nat) inds) (fun ks => aget d a (map (fun ik => nth (snd ik) (fst ik) 0) (combine inds ks))).

(** permutations.py:324-391 [compress_axes]. *)
Definition compress_axes {A} (d : A) (sub : pystr) (a : arr A) (diag : bool) : result (arr A) :=
  sub1 <- rename sub ;;
  g <- group_axes d sub1 a ;;
  match g with
  | (b, _, ncs) =>
      inds <- mapM (fun nc => tril_indices_ndim (fst nc) (snd nc) diag) ncs ;;
      let flats := map (fun p => map (ravel (repeat (fst (fst p)) (snd (fst p)))) (columns (snd p)))
                       (combine ncs inds) in
      Ok (take_mesh d b flats)
  end.

(** permutations.py:449-455 (= 549-556): symmetry per group, read off consecutive slices of the
    symmetry string, each of which must be constant. ['-'] is 45, ['+'] is 43. *)
Fixpoint symmetry_compress (counts : list nat) (symm : pystr) (n : nat) : result pystr :=
  match counts with
  | [] => Ok []
  | c :: counts' =>
      if length (dedup (slice n (n + c) symm)) =? 1
      then r <- symmetry_compress counts' symm (n + c) ;; Ok (nth n symm 0 :: r)
      else Err AssertionError
  end.
Definition ch_minus := 45.
Definition ch_plus := 43.

Section Scalars.
  Variable K : rng.
  Local Open Scope rng_scope.

  (** Integer sign as a scalar, and [array * sign]. *)
  Definition sgn (z : Z) : K := rZ z.

  (** permutations.py:463-488: one iteration of the loop over permutations with signs: the
      positions written (C order of the broadcast index arrays) and the values. *)
  Definition put_once (ncs : list (nat * nat)) (symc : pystr) (flat : list K) (a : arr K)
      (tup : list (list (list nat) * Z)) : arr K :=
    let signs := map (fun p => if snd p =? ch_minus then snd (fst p) else 1%Z)%nat (combine tup symc) in
    let sign := fold_right Z.mul 1%Z signs in
    let flats := map (fun p => map (ravel (repeat (fst (fst p)) (snd (fst p)))) (columns (fst (snd p))))
                     (combine ncs tup) in
    np_put r0 a (map (ravel (shp a)) (product flats)) (map (fun v => v * sgn sign) flat).

  (** permutations.py:394-500 [decompress_axes] with [shape] given and [out=None];
      [symmetry=None] means all minus signs (lines 412-413). *)
  Definition decompress_axes (sub : pystr) (flat : arr K) (shape : list nat) (diag : bool)
      (symmetry : option pystr) : result (arr K) :=
    let symm := match symmetry with None => repeat ch_minus (length sub) | Some s => s end in
    sub1 <- rename sub ;;
    g <- group_axes r0 sub1 (full shape r0) ;;
    match g with
    | (b, arg, ncs) =>
        symc <- symmetry_compress (map snd ncs) symm 0 ;;
        inds <- mapM (fun nc => tril_indices_ndim (fst nc) (snd nc) diag) ncs ;;
        let c := fold_left (put_once ncs symc (dat flat)) (product (map (@permutations_with_signs (list nat)) inds)) b in
        e <- reshape c (flat_map (fun nc => repeat (fst nc) (snd nc)) ncs) ;;
        transpose r0 e (argsort arg)
    end.

  (** permutations.py:503-523 [get_compressed_size]; [sizes] are the keyword arguments.  The
      iteration order of [set(subscript)] is irrelevant up to which KeyError is raised. *)
  Definition get_compressed_size (sub : pystr) (sizes : dict nat nat) : result nat :=
    ns <- mapM (fun c => n <- size_of sizes c ;; Ok (ntril_ndim n (count sub c) false)) (dedup sub) ;;
    Ok (fold_left Nat.mul ns 1%nat).

  (** permutations.py:558-560, 566-569: axes of each group; assembled permutation. *)
  Definition group_positions (sub : pystr) (c : nat) : list nat :=
    filter (fun i => nth i sub 0%nat =? c)%nat (seq 0 (length sub)).
  Definition assemble_perm (n : nat) (inds perms : list (list nat)) : list nat :=
    fold_left (fun perm ip => fold_left (fun perm q => lupd (fst q) (snd q) perm) (combine (fst ip) (snd ip)) perm)
      (combine inds perms) (seq 0 n).

  (** Element-wise sum and scaling of arrays of the same shape. *)
  Definition arr_add (a b : arr K) : arr K := mkarr (shp a) (map (fun p => fst p + snd p) (combine (dat a) (dat b))).
  (** numpy raises for different shapes unless one extent is 1; that broadcasting case is not
      modelled (the theorems assume equal extents within a group, where it cannot arise). *)
  Definition arr_addM (a b : arr K) : result (arr K) :=
    if list_eq_dec Nat.eq_dec (shp a) (shp b) then Ok (arr_add a b) else Err BroadcastError.
  Definition arr_scale (c : K) (a : arr K) : arr K := mkarr (shp a) (map (fun x => x * c) (dat a)).

  (** permutations.py:526-579 [symmetrise]. [factor] stands for
      [get_symmetry_factor( *sizes )] as a function of its exponent: [1 / 2 ** ntot]
      (lines 226-230); [apply_factor=False] is [None]. [sign = prod(signs) if
      symmetry[perm[0]] == "-" else 1] (line 571) looks at the first axis only; IndexError for an
      empty subscript. *)
  Definition symmetrise_term (sub symm : pystr) (inds : list (list nat)) (a acc : arr K)
      (tup : list (list nat * Z)) : result (arr K) :=
    let perm := assemble_perm (length sub) inds (map fst tup) in
    match perm with
    | [] => Err IndexError
    | p0 :: _ =>
        match nth_error symm p0 with
        | None => Err IndexError
        | Some ch =>
            let sign := if (ch =? ch_minus)%nat then fold_right Z.mul 1%Z (map snd tup) else 1%Z in
            t <- transpose r0 a perm ;; arr_addM acc (arr_scale (sgn sign) t)
        end
    end.
  Fixpoint foldM {A B} (f : A -> B -> result A) (l : list B) (x : A) : result A :=
    match l with [] => Ok x | y :: l' => z <- f x y ;; foldM f l' z end.

  Definition symmetrise (factor : option (nat -> K)) (sub : pystr) (a : arr K) (symmetry : option pystr)
      : result (arr K) :=
    sub1 <- rename sub ;;
    let symm := match symmetry with None => repeat ch_minus (length sub1) | Some s => s end in
    let chars := sorted_set sub1 in
    let counts := map (count sub1) chars in
    symc <- symmetry_compress counts symm 0 ;;
    let groups := combine chars symc in
    let inds := map (fun cs => group_positions sub1 (fst cs)) groups in
    r <- foldM (symmetrise_term sub1 symm inds a) (product (map (@permutations_with_signs nat) inds))
           (full (shp a) r0) ;;
    match factor with
    | None => Ok r
    | Some f => Ok (arr_scale (f (symmetry_exponent counts)) r)
    end.

  (** permutations.py:244-268 [antisymmetrise_array]: [axes=None] means all axes; the transpose list
      maps each listed axis to its image.  [axes.index(ax)] finds the first occurrence. *)
  Definition antisymm_perm (n : nat) (axes perm : list nat) : list nat :=
    map (fun ax => match index_of ax axes with Some j => nth j perm 0%nat | None => ax end) (seq 0 n).
  Definition antisymmetrise_array (a : arr K) (axes : option (list nat)) : result (arr K) :=
    let ax := match axes with None => seq 0 (length (shp a)) | Some l => l end in
    foldM (fun acc ps => t <- transpose r0 a (antisymm_perm (length (shp a)) ax (fst ps)) ;;
                         arr_addM acc (arr_scale (sgn (snd ps)) t))
      (permutations_with_signs ax) (full (shp a) r0).
End Scalars.

(** permutations.py:226-230: the factor [1 / 2 ** ntot] over a field. *)
Definition half_pow {F : fld} (n : nat) : F := fdiv r1 (rpow (radd r1 r1) n).
