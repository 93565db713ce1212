(** Model of ebcc/core/davidson.py.  Scalars: an arbitrary field with a comparison; complex numbers are pairs.  The
    eigensolvers, numpy's argsort and the matrix-vector product are parameters.  Vectors are lists, a two-dimensional array of
    vectors is a list of rows; arrays of eigenvectors, whose columns are the vectors, are lists of columns.  The trial vectors, basis
    vectors and products are stored by the code as complex numbers without imaginary part; here they are
    real, so [np.conj] and [np.real] of them do nothing.  The subspace matrix is a function of two indices with bounds.
    Rows of equal length are not checked; the callback is not modelled. *)
From Coq Require Import List Arith Bool.
From Verif Require Import Base Alg.
Import ListNotations.
Set Implicit Arguments.
Local Open Scope nat_scope.
Local Open Scope py_scope.

Section Dav.
  Variable F : fld.
  Local Notation vec := (list F).
  Local Notation cplx := (F * F)%type.
  Variable ltb : F -> F -> bool.

  Definition absv (x : F) : F := if ltb x r0 then ropp x else x.
  Definition re (z : cplx) : F := fst z.
  Definition im (z : cplx) : F := snd z.

  (** * Vectors. *)
  Fixpoint zip2 {A B C} (f : A -> B -> C) (a : list A) (b : list B) : list C :=
    match a, b with x :: a', y :: b' => f x y :: zip2 f a' b' | _, _ => [] end.
  Definition dot (a b : vec) : F := rsum (zip2 rmul a b).
  Definition vsub (a b : vec) : vec := zip2 rsub a b.
  Definition vadd (a b : vec) : vec := zip2 radd a b.
  Definition scale (c : F) (a : vec) : vec := map (rmul c) a.
  (** [np.linalg.norm] *)
  Variable norm : vec -> F.

  (** davidson.py:55-65 [preconditioner] *)
  Definition precondition (diag : vec) (tol : F) (dx : vec) (e : F) : vec :=
    zip2 fdiv dx (map (fun d => let s := rsub d e in if ltb (absv s) tol then tol else s) diag).

  (** davidson.py:211-230 [_orthonormalise_vectors]; [np.stack] refuses an empty list. *)
  Definition orth_step (lindep_tol : F) (out : list vec) (v : vec) : list vec :=
    let w := fold_left (fun w b => vsub w (scale (dot b w) b)) out v in
    if ltb lindep_tol (rmul (norm w) (norm w)) then out ++ [map (fun x => fdiv x (norm w)) w] else out.
  Definition orthonormalise (lindep_tol : F) (vectors : list vec) : result (list vec) :=
    match fold_left (orth_step lindep_tol) vectors [] with [] => Err ValueError | out => Ok out end.
  (** davidson.py:233-249 [_project_vectors]: the contraction "ik,lk,lj->ij" is the sum over [l] *)
  Definition project_one (basis : list vec) (v : vec) : vec :=
    vsub v (fold_right (fun b acc => vadd (scale (dot v b) b) acc) (map (fun _ => r0) v) basis).
  Definition project (vectors basis : list vec) : list vec := map (project_one basis) vectors.
  (** davidson.py:252-264 [_normalise_vectors] *)
  Definition normalise (lindep_tol : F) (vectors : list vec) : list vec :=
    map (fun v => map (fun x => fdiv x (norm v)) v) (filter (fun v => ltb lindep_tol (rmul (norm v) (norm v))) vectors).
  (** davidson.py:267-278 [_outer_product_to_subspace] for one column: "xi,xj->ij" *)
  Definition combine_rows (dim : nat) (c : vec) (basis : list vec) : result vec :=
    if length c =? length basis then Ok (fold_right vadd (repeat r0 dim) (zip2 scale c basis)) else Err ValueError.
  Definition outer (dim : nat) (v : list vec) (basis : list vec) : result (list vec) := mapM (fun c => combine_rows dim c basis) v.

  (** * The subspace matrix. *)
  (** [_put(matrix, np.ix_(rows, cols), values)] *)
  Definition matrix := nat -> nat -> F.
  Definition put (size : nat) (m : matrix) (r0' r1' c0' c1' : nat) (f : nat -> nat -> F) : result matrix :=
    if (r1' <=? size) && (c1' <=? size) || (r1' - r0' =? 0) || (c1' - c0' =? 0)
    then Ok (fun i j => if (r0' <=? i) && (i <? r1') && (c0' <=? j) && (j <? c1') then f (i - r0') (j - c0') else m i j)
    else Err IndexError.
  (** davidson.py:132-180 [_fill_subspace_matrix] *)
  Definition row (l : list vec) (i : nat) : vec := nth i l [].
  Definition fill (size : nat) (prev : matrix) (basis mbasis trial mtrial : list vec) : result matrix :=
    let row1 := length mbasis in
    let row0 := row1 - length mtrial in
    m <- put size prev row0 row1 row0 row1 (fun i j => dot (row trial i) (row mtrial j)) ;;
    m <- put size m 0 row0 row0 row1 (fun i j => dot (row basis i) (row mtrial j)) ;;
    put size m row0 row1 0 row0 (fun i j => dot (row trial i) (row mbasis j)).
  Definition square (m : matrix) (n : nat) : list vec := map (fun i => map (fun j => m i j) (seq 0 n)) (seq 0 n).

  (** * Choosing eigenvalues. *)
  (** [np.sort] *)
  Fixpoint insert (x : F) (l : list F) : list F := match l with [] => [x] | y :: l' => if ltb y x then y :: insert x l' else x :: l end.
  Definition sort (l : list F) : list F := fold_right insert [] l.
  (** [x[i]] with Python's negative indices *)
  Definition pick_index (l : list F) (n : nat) : result F :=
    match l with [] => Err IndexError | _ => Ok (if n =? 0 then last l r0 else nth (n - 1) l r0) end.
  Variable argsort : list F -> list nat.
  (** [x[1::2]] *)
  Fixpoint odd_ones {A} (l : list A) : list A := match l with _ :: y :: l' => y :: odd_ones l' | _ => [] end.
  Definition positions {A} (p : A -> bool) (l : list A) : list nat := map fst (filter (fun x => p (snd x)) (combine (seq 0 (length l)) l)).
  Definition czero : cplx := (r0, r0).
  Variable is_zero : F -> bool.
  (** davidson.py:92-129 [make_eigenvectors_real] with real eigenvectors *)
  Definition make_real (w : list cplx) (v : list (list cplx)) (real_idx : list nat) : list F * list vec * list nat :=
    let order := argsort (map (fun i => re (nth i w czero)) real_idx) in
    let idx := map (fun k => nth k real_idx 0) order in
    let w := map (fun i => nth i w czero) idx in
    let v := map (fun i => nth i v []) idx in
    let degen := positions (fun z => negb (is_zero (im z))) w in
    let cols := map (fun kc : nat * list cplx => if existsb (Nat.eqb (fst kc)) (odd_ones degen) then map im (snd kc) else map re (snd kc))
                  (combine (seq 0 (length v)) v) in
    (map re w, cols, idx).
  (** davidson.py:68-89 [pick_real_eigenvalues] *)
  Definition pick_real (imaginary_tol : F) (w : list cplx) (v : list (list cplx)) (nroots : nat) (_ : list vec) : result (list F * list vec * list nat) :=
    let abs_imag := map (fun z => absv (im z)) w in
    x <- pick_index (sort abs_imag) (Nat.min (length w) nroots) ;;
    let tol := if ltb imaginary_tol x then x else imaginary_tol in
    Ok (make_real w v (positions (fun a => ltb a tol) abs_imag)).

  (** * The iterations. *)
  (** davidson.py:183-208 [_sort_eigenvalues]: for each new vector the old one with the largest overlap; rows beyond those
      of the old vectors are left out. *)
  Fixpoint argmax_from (best : nat) (bx : F) (k : nat) (l : list F) : nat :=
    match l with [] => best | x :: l' => if ltb bx x then argmax_from k x (S k) l' else argmax_from best bx (S k) l' end.
  Definition argmax (l : list F) : nat := match l with [] => 0 | x :: l' => argmax_from 0 x 1 l' end.
  Definition sort_eigenvalues (w_prev : vec) (conv_prev : list bool) (v_prev v : list vec) : vec * list bool :=
    let idx := map (fun c => argmax (map (fun p => absv (dot c p)) v_prev)) v in
    (map (fun i => nth i w_prev r0) idx, map (fun i => nth i conv_prev false) idx).

  (** What survives a cycle.  [initial] are the vectors a restart starts from. *)
  Record state := mks { basis : list vec; mbasis : list vec; space : nat; sub : matrix; w_of : vec; v_of : list vec;
    conv_of : list bool; vectors : list vec; trial : list vec; restart : bool }.
  Inductive outcome := Continue (s : state) | Break (s : state).

  Variable matvec : vec -> vec.
  Variable eig : list vec -> list cplx * list (list cplx).
  Variable eig_left : list vec -> list cplx * list (list cplx) * list (list cplx).
  Variable pick : list cplx -> list (list cplx) -> nat -> list vec -> result (list F * list vec * list nat).
  Variables (diag : vec) (nroots max_space max_trials : nat) (e_tol loose_tol lindep_tol ptol level_shift : F) (follow_state : bool).
  (** davidson.py:300: [max_space += (nroots - 1) * 6]; without roots this would subtract. *)
  Definition full_space : nat := max_space + nroots * 6 - 6.
  Definition capacity : nat := full_space + nroots.
  Definition dim : nat := length diag.

  (** davidson.py:325-419: one cycle. *)
  Definition cycle (s : state) : result outcome :=
    trial' <- (if restart s then orthonormalise lindep_tol (vectors s)
               else if 1 <? length (trial s) then t <- orthonormalise lindep_tol (trial s) ;; Ok (firstn max_trials t) else Ok (trial s)) ;;
    let b0 := if restart s then [] else basis s in
    let mb0 := if restart s then [] else mbasis s in
    let sp0 := if restart s then 0 else space s in
    mtrial <- match trial' with [] => Err ValueError | _ => Ok (map matvec trial') end ;;
    let b := b0 ++ trial' in
    let mb := mb0 ++ mtrial in
    let sp := sp0 + length trial' in
    m <- fill capacity (sub s) b mb trial' mtrial ;;
    let (ew, ev) := eig (square m sp) in
    p <- pick ew ev nroots b ;;
    let '(w, v, _) := p in
    match w with
    | [] => Err RuntimeError
    | _ =>
        let w := firstn nroots w in
        let v := firstn nroots v in
        let w_prev := if restart s then w_of s else fst (sort_eigenvalues (w_of s) (conv_of s) (v_of s) v) in
        let dw := if length w_prev =? length w then vsub w w_prev else w in
        vecs <- outer dim v b ;;
        mvecs <- outer dim v mb ;;
        if negb (length w =? length v) then Err BroadcastError else
        let resid := zip2 vsub mvecs (zip2 scale w vecs) in
        let norms := map norm resid in
        let conv := zip2 (fun d n => ltb (absv d) e_tol && ltb n loose_tol) dw norms in
        let here := fun conv vectors trial restart => mks b mb sp m w v conv vectors trial restart in
        if forallb (fun c => c) conv then Ok (Break (here conv vecs resid (restart s))) else
        if follow_state && existsb (ltb r1) norms && (nroots + 4 <? sp) then
          back <- outer dim (v_of s) b ;; Ok (Continue (here conv back resid true))
        else
          let t := normalise lindep_tol (project (map (fun r => precondition diag ptol r (rsub (nth 0 w r0) level_shift)) resid) b) in
          match t with
          | [] => Ok (Break (here (zip2 (fun c n => c || ltb n loose_tol) conv norms) vecs t (restart s)))
          | _ => Ok (Continue (here conv vecs t (full_space <? sp + nroots)))
          end
    end.

  Fixpoint loop (fuel : nat) (s : state) : result state :=
    match fuel with
    | 0 => Ok s
    | S fuel' => o <- cycle s ;; match o with Break s' => Ok s' | Continue s' => loop fuel' s' end
    end.
  (** davidson.py:281-436 [davidson]; [junk] is what the uninitialised matrix contains.  The vectors are returned as columns. *)
  Definition start (junk : matrix) (guesses : list vec) : state :=
    mks [] [] 0 junk [] [] (repeat false nroots) guesses [] true.
  Definition davidson (junk : matrix) (guesses : list vec) (max_iter : nat) (left : bool) : result (list bool * vec * list (list cplx)) :=
    s <- loop max_iter (start junk guesses) ;;
    if left then
      let '(wl, vl, vr) := eig_left (square (sub s) (space s)) in
      p <- pick wl vr nroots (basis s) ;;
      let '(w, _, idx) := p in
      match w with
      | [] => Err RuntimeError
      | _ =>
          let cols := map (fun i => nth i vl []) (firstn nroots idx) in
          xr <- outer dim (map (map re) cols) (basis s) ;;
          xi <- outer dim (map (map im) cols) (basis s) ;;
          Ok (conv_of s, firstn nroots w, zip2 (zip2 pair) xr xi)
      end
    else Ok (conv_of s, w_of s, map (map (fun x => (x, r0))) (vectors s)).
End Dav.
