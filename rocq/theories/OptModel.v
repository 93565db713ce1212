(** Model of ebcc/opt/{base,rbrueckner,gbrueckner,ubrueckner}.py: Brueckner orbital optimisation.  The matrix exponential, the
    real part of the matrix logarithm, the sign of the determinant and the accelerator are parameters, and so is the
    contraction path numpy chooses.  Arrays are values (the in-place [numpy.put] of [_put] returns the new array).  Logging,
    timing and the options object are not modelled. *)
From Coq Require Import String.
From Verif Require Import Base Alg ArrModel PermModel TensorModel EinsumModel EinPathModel SpaceModel AnsatzModel VecModel CcModel ExtModel.
Set Implicit Arguments.
Local Open Scope nat_scope.
Local Open Scope list_scope.
Local Open Scope py_scope.

Section Opt.
  Variable F : fld.
  Local Notation amps := (dict pystr (tval F)).

  (** [u[lo:hi, lo:hi]] of a matrix; slices stop at the end of the axis. *)
  Definition corner (u : arr F) (lo hi : nat) : result (arr F) :=
    match shp u with
    | [r; c] => Ok (tab [Nat.min hi r - lo; Nat.min hi c - lo]
                      (fun idx => aget r0 u [lo + nth 0 idx 0; lo + nth 1 idx 0]))
    | _ => Err IndexError
    end.
  Definition extent (u : arr F) : nat := fold_right Nat.max 0 (shp u).
  Definition upper_left (no : nat) (u : arr F) := corner u 0 no.
  Definition lower_right (no : nat) (u : arr F) := corner u no (extent u).

  (** * Rotation of the amplitudes. *)
  Section Transform.
    Variable method : option nat.
    (** numpy's contraction path for given labels and operands. *)
    Variable path_of : list (list nat) -> list nat -> list (arr F) -> list contraction.

    (** rbrueckner.py:96-105: the contraction of one array of rank [2n] with one matrix per axis. *)
    Definition axis_labels (n : nat) : list (list nat) :=
      map (fun i => [i; i + n * 2]) (seq 0 n) ++ map (fun i => [i + n; i + n * 3]) (seq 0 n).
    Definition rotate (n : nat) (x : arr F) (mats : list (arr F)) : result (arr F) :=
      let subs := seq 0 (n * 2) :: axis_labels n in
      let out := seq (n * 2) (n * 4 - n * 2) in
      einsum_lists F method false true (path_of subs out (x :: mats)) subs (Some out) (x :: mats) r1 r0 None.

    (** rbrueckner.py:75-115, gbrueckner.py likewise.  The argument [amplitudes] is never used; [cur] is [self.cc.amplitudes]. *)
    Definition rg_transform (a : ansatz) (sp : space) (rspin : bool) (u : arr F) (given : option amps) (cur : amps) : result amps :=
      ci <- upper_left (ncocc sp) u ;;
      ca <- lower_right (ncocc sp) u ;;
      fs <- fermionic_cluster_ranks a rspin Wt ;;
      d <- foldM (fun d e => let '(name, _, n) := e in
                    v <- lookup name d ;; x <- as_arr v ;; y <- rotate n x (repeat ci n ++ repeat ca n) ;;
                    Ok (dset pystr_eq_dec name (VArr y) d)) fs cur ;;
      bs <- bosonic_cluster_ranks a Wt ;;
      match bs with
      | _ :: _ => Err ModelNotImplemented
      | [] => cs <- coupling_cluster_ranks a Wt ;; match cs with _ :: _ => Err ModelNotImplemented | [] => Ok d end
      end.

    (** [{"a": xa, "b": xb}[c]] *)
    Definition by_spin {A} (xa xb : A) (c : nat) : result A :=
      if c =? ch_a then Ok xa else if c =? ch_b then Ok xb else Err KeyError.
    (** ubrueckner.py:114-122: the loop over the spin strings only reads, leaving [comb] and the first
        operand at the last one; the contraction and the assignment follow the loop. *)
    Definition u_transform_entry (ca_i cb_i ca_a cb_a : arr F) (n : nat) (d : dict pystr (arr F)) : result (dict pystr (arr F)) :=
      l <- mapM (fun comb => match dget pystr_eq_dec comb d with Some x => Ok (comb, x) | None => Err AttributeError end)
             (generate_spin_combinations n false true) ;;
      match rev l with
      | [] => Err NameError
      | (comb, x) :: _ =>
          is <- mapM (fun i => by_spin ca_i cb_i (nth i comb 0)) (seq 0 n) ;;
          as_ <- mapM (fun i => by_spin ca_a cb_a (nth (i + n) comb 0)) (seq 0 n) ;;
          y <- rotate n x (is ++ as_) ;;
          Ok (dset pystr_eq_dec comb y d)
      end.
    Definition u_transform (a : ansatz) (sa sb : space) (ua ub : arr F) (given : option amps) (cur : amps) : result amps :=
      ia <- upper_left (ncocc sa) ua ;; ib <- upper_left (ncocc sb) ub ;;
      aa <- lower_right (ncocc sa) ua ;; ab <- lower_right (ncocc sb) ub ;;
      fs <- fermionic_cluster_ranks a false Wt ;;
      d <- foldM (fun d e => let '(name, _, n) := e in
                    v <- lookup name d ;; x <- as_spin v ;; y <- u_transform_entry ia ib aa ab n x ;;
                    Ok (dset pystr_eq_dec name (VSpin y) d)) fs cur ;;
      bs <- bosonic_cluster_ranks a Wt ;;
      match bs with
      | _ :: _ => Err ModelNotImplemented
      | [] => cs <- coupling_cluster_ranks a Wt ;; match cs with _ :: _ => Err ModelNotImplemented | [] => Ok d end
      end.
  End Transform.

  (** * Rotation matrices. *)
  (** [np.eye] *)
  Definition eye (n : nat) : arr F := tab [n; n] (fun i => if nth 0 i 0 =? nth 1 i 0 then r1 else r0).
  (** [a @ b] *)
  Definition matmul (a b : arr F) : result (arr F) := np_einsum F [str "ij"; str "jk"] (str "ik") [a; b].
  (** rbrueckner.py:57-59: [np.block([[0, -t1], [t1.T, 0]])]; the blocks have to fit. *)
  Definition t1_block (no nv : nat) (t1 : arr F) : result (arr F) :=
    match shp t1 with
    | [r; c] => if (r =? no) && (c =? nv) then
        Ok (tab [no + nv; no + nv] (fun idx => let i := nth 0 idx 0 in let j := nth 1 idx 0 in
              if (i <? no) && (no <=? j) then ropp (aget r0 t1 [i; j - no])
              else if (no <=? i) && (j <? no) then aget r0 t1 [j; i - no] else r0))
        else Err ValueError
    | _ => Err ValueError
    end.
  (** rbrueckner.py:65: the first column is negated, over the first [rows] rows. *)
  Definition negate_column (rows : nat) (u : arr F) : result (arr F) :=
    match shp u with
    | [r; c] => if c =? 0 then Err IndexError else
        put_ix r0 u [seq 0 rows; [0]] (mkarr [r] (map (fun i => ropp (aget r0 u [i; 0])) (seq 0 r)))
    | _ => Err IndexError
    end.

  Section Rotation.
    Variables expm logm : arr F -> arr F.
    Variable det_negative : arr F -> bool.
    (** The accelerator: state, matrix, error. *)
    Variable D : Type.
    Variable damp : D -> arr F -> arr F -> result (D * arr F).

    Definition or_eye (n : nat) (u : option (arr F)) : arr F := match u with Some u => u | None => eye n end.
    (** rbrueckner.py:52-65: the step and the product with the previous rotation, with the determinant made positive. *)
    Definition advance (sp : space) (rows : arr F -> nat) (u_tot : arr F) (t1 : arr F) : result (arr F * arr F) :=
      b <- t1_block (ncocc sp) (ncvir sp) t1 ;;
      let u := expm b in
      ut <- matmul u_tot u ;;
      if det_negative ut then ut' <- negate_column (rows ut) ut ;; Ok (u, ut') else Ok (u, ut).
    Definition rows_of (u : arr F) : nat := nth 0 (shp u) 0.
    (** rbrueckner.py:34-73, gbrueckner.py likewise [get_rotation_matrix]; without accelerator [d] is [None]. *)
    Definition rotation (sp : space) (u_tot : option (arr F)) (d : option D) (t1 : arr F) : result (option D * arr F * arr F) :=
      uu <- advance sp rows_of (or_eye (ncorr sp) u_tot) t1 ;;
      let a := logm (snd uu) in
      da <- match d with None => Ok (None, a) | Some s => r <- damp s a t1 ;; Ok (Some (fst r), snd r) end ;;
      Ok (fst da, fst uu, expm (snd da)).

    (** [np.concatenate([np.ravel(a), np.ravel(b)])] *)
    Definition ravels (a b : arr F) : arr F := mkarr [length (dat a) + length (dat b)] (dat a ++ dat b).
    (** ubrueckner.py:34-92: both spins; the beta column is negated over as many rows as the alpha matrix has. *)
    Definition u_rotation (sa sb : space) (u_tot : option (arr F * arr F)) (d : option D) (ta tb : arr F)
        : result (option D * (arr F * arr F) * (arr F * arr F)) :=
      let u0 := match u_tot with Some u => u | None => (eye (ncorr sa), eye (ncorr sb)) end in
      aa <- advance sa rows_of (fst u0) ta ;;
      bb <- advance sb (fun _ => rows_of (snd aa)) (snd u0) tb ;;
      let a := ravels (logm (snd aa)) (logm (snd bb)) in
      da <- match d with None => Ok (None, a) | Some s => r <- damp s a (ravels ta tb) ;; Ok (Some (fst r), snd r) end ;;
      let size := length (dat (snd aa)) in
      xa <- reshape (mkarr [size] (firstn size (dat (snd da)))) (shp (snd aa)) ;;
      xb <- reshape (mkarr [length (dat (snd da)) - size] (skipn size (dat (snd da)))) (shp (snd bb)) ;;
      Ok (fst da, (fst aa, fst bb), (expm xa, expm xb)).
  End Rotation.

  (** * Orbital coefficients. *)
  (** rbrueckner.py:131-140 [mo_to_correlated]: [mo_coeff[:, mask]]. *)
  Definition mo_to_correlated (sp : space) (mo : arr F) : result (arr F) :=
    match shp mo with
    | [r; c] => if length (correlated sp) =? c then get_ix r0 mo [seq 0 r; nonzero (correlated sp)] else Err IndexError
    | _ => Err IndexError
    end.
  (** rbrueckner.py:142-157 [mo_update_correlated] *)
  Definition mo_update_correlated (sp : space) (mo corr : arr F) : result (arr F) :=
    put_ix r0 mo [seq 0 (nth 0 (shp mo) 0); nonzero (correlated sp)] corr.
  (** rbrueckner.py:159-174 [update_coefficients]; the unrestricted version (ubrueckner.py:195-216) does this for each spin. *)
  Definition update_coefficients (method : option nat) (sp : space) (u_tot mo ref : arr F) : result (arr F) :=
    c <- einsum_str F method false true [] (str "pi,ij->pj") [ref; u_tot] r1 r0 None ;; mo_update_correlated sp mo c.

  (** The orbitals through the cycles of base.py:134-160, for the amplitudes the successive coupled cluster
      calculations produce. *)
  Section Orbitals.
    Variables expm logm : arr F -> arr F.
    Variable det_negative : arr F -> bool.
    Variable D : Type.
    Variable damp : D -> arr F -> arr F -> result (D * arr F).
    Variable method : option nat.
    Fixpoint orbital_cycles (sp : space) (ref : arr F) (t1s : list (arr F)) (d : option D) (u_tot : option (arr F)) (mo : arr F)
        : result (arr F) :=
      match t1s with
      | [] => Ok mo
      | t1 :: rest =>
          r <- rotation expm logm det_negative damp sp u_tot d t1 ;;
          let '(d', _, ut) := r in
          mo' <- update_coefficients method sp ut mo ref ;;
          orbital_cycles sp ref rest d' (Some ut) mo'
      end.
    Definition brueckner_orbitals (sp : space) (mo : arr F) (d : D) (t1s : list (arr F)) : result (arr F) :=
      ref <- mo_to_correlated sp mo ;; orbital_cycles sp ref t1s (Some d) None mo.

    (** The same with the two spins of ubrueckner.py. *)
    Fixpoint u_orbital_cycles (sa sb : space) (refa refb : arr F) (t1s : list (arr F * arr F)) (d : option D) (u_tot : option (arr F * arr F))
        (moa mob : arr F) : result (arr F * arr F) :=
      match t1s with
      | [] => Ok (moa, mob)
      | (ta, tb) :: rest =>
          r <- u_rotation expm logm det_negative damp sa sb u_tot d ta tb ;;
          let '(d', _, ut) := r in
          moa' <- update_coefficients method sa (fst ut) moa refa ;;
          mob' <- update_coefficients method sb (snd ut) mob refb ;;
          u_orbital_cycles sa sb refa refb rest d' (Some ut) moa' mob'
      end.
    Definition u_brueckner_orbitals (sa sb : space) (moa mob : arr F) (d : D) (t1s : list (arr F * arr F)) : result (arr F * arr F) :=
      refa <- mo_to_correlated sa moa ;; refb <- mo_to_correlated sb mob ;;
      u_orbital_cycles sa sb refa refb t1s (Some d) None moa mob.
  End Orbitals.
End Opt.

(** * The optimisation loop. *)
Section Loop.
  (** Amplitudes, orbital coefficients, rotations, accelerator states, numbers. *)
  Variables (A M U D R : Type).
  Variables (ltb : R -> R -> bool) (absdiff plus : R -> R -> R).
  (** What the calculation object shows: amplitudes, correlation energy, flag, and the mean-field energy and orbitals of
      its mean-field object.  [own] tells whether that object is the one the optimiser changes: true at first, later
      whether [_convert_mf] (cc/base.py) hands back the object it is given. *)
  Record calc := mkcalc { amplitudes : A; e_corr : R; cc_converged : bool; e_mf : R; mo : M; own : bool }.
  (** base.py:86-92 *)
  Record brueckner := mkbr { calculation : calc; converged : bool }.
  Record boptions := mkbo { e_tol : R; t_tol : R; max_iter : nat }.

  (** [cc.kernel()] for given orbitals and starting amplitudes: amplitudes, correlation energy, flag. *)
  Variable solve : M -> A -> result (A * R * bool).
  Variable get_rotation : A -> option U -> D -> result (D * U * U).
  Variable to_correlated : M -> result M.
  Variable update_coefficients : U -> M -> M -> result M.
  Variable mean_field_energy : M -> result R.
  Variable transform : U -> A -> result A.
  Variable t1_norm : A -> result R.
  Variable same_object : bool.
  Variable damping0 : D.
  Variable o : boptions.

  (** cc/base.py [e_tot] *)
  Definition e_tot (c : calc) : R := plus (e_mf c) (e_corr c).

  (** What survives from one cycle to the next. *)
  Record state := mkst { cc_of : calc; u_tot : option U; coeff : M; accel : D }.
  (** base.py:156-184: one cycle; also returns the change of energy and the norm. *)
  Definition cycle (ref : M) (s : state) : result (state * R * R) :=
    r <- get_rotation (amplitudes (cc_of s)) (u_tot s) (accel s) ;;
    let '(d, u, ut) := r in
    m <- update_coefficients ut (coeff s) ref ;;
    e <- mean_field_energy m ;;
    let c := cc_of s in
    let c := mkcalc (amplitudes c) (e_corr c) (cc_converged c) (if own c then e else e_mf c) (if own c then m else mo c) (own c) in
    a <- transform u (amplitudes c) ;;
    let e_prev := e_tot c in
    k <- solve m a ;;
    let '(a', ec, cv) := k in
    let c' := mkcalc a' ec cv e m same_object in
    dt <- t1_norm a' ;;
    Ok (mkst c' (Some ut) m d, absdiff e_prev (e_tot c'), dt).
  (** base.py:155-209 *)
  Fixpoint loop (fuel : nat) (ref : M) (s : state) : result state :=
    match fuel with
    | 0 => Ok s
    | S fuel' =>
        r <- cycle ref s ;;
        let '(s', de, dt) := r in
        if ltb de (e_tol o) && ltb dt (t_tol o) then Ok s' else loop fuel' ref s'
    end.
  (** base.py:118-218 [kernel]: the flag [converged] is a local variable. *)
  Definition kernel (b : brueckner) : result (R * brueckner) :=
    let c := calculation b in
    c <- (if cc_converged c then Ok c else
            k <- solve (mo c) (amplitudes c) ;;
            let '(a, ec, cv) := k in Ok (mkcalc a ec cv (e_mf c) (mo c) (own c))) ;;
    ref <- to_correlated (mo c) ;;
    s <- loop (max_iter o) ref (mkst c None (mo c) damping0) ;;
    Ok (e_corr (cc_of s), mkbr (cc_of s) (converged b)).
End Loop.
