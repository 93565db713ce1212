(** Model of ebcc/core/damping.py.  Vectors are flat lists over an arbitrary commutative ring (exact, real: [conj] is the
    identity).  Operations on vectors of different lengths truncate instead of raising; the theorems assume equal lengths.
    The linear solver, with its eigendecomposition fallback (damping.py:289-303), is the parameter [lin_solve]; an
    exception inside it is [Err].  The comparison of norms in [max] is the parameter [gtb]; the truth value of the damping
    factor is the parameter [nonzero].  Not modelled: the choice of array backend. *)
From Verif Require Import Base Alg.
Set Implicit Arguments.
Local Open Scope nat_scope.
Local Open Scope list_scope.

(** Pointwise operation on two sequences. *)
Fixpoint zipw {A B C} (f : A -> B -> C) (a : list A) (b : list B) : list C :=
  match a, b with x :: a', y :: b' => f x y :: zipw f a' b' | _, _ => [] end.

Section Vec.
  Variable K : rng.
  Definition vec := list K.
  Definition vadd (a b : vec) : vec := zipw radd a b.
  Definition vsub (a b : vec) : vec := zipw rsub a b.
  Definition vscale (c : K) (a : vec) : vec := map (fun x => rmul x c) a.
  (** [numpy.zeros_like] *)
  Definition vzero (a : vec) : vec := map (fun _ => r0) a.
  (** [numpy.dot] of two flat arrays *)
  Definition vdot (a b : vec) : K := rsum (zipw rmul a b).
End Vec.

Section Linear.
  Variable K : rng.
  (** damping.py:144-146, 197-202: the value given, else the attribute of the options object, else the default. *)
  Definition resolve {A} (given attribute : option A) (default : A) : A :=
    match given with Some f => f | None => match attribute with Some f => f | None => default end end.

  (** [_arrays] and [_counter] (damping.py:33-41); [__len__] is the number of arrays (81-83) *)
  Record linear := mklin { larrays : dict nat (vec K); lcounter : nat }.
  Definition linear_init : linear := mklin [] 0.
  (** damping.py:75-79 *)
  Definition linear_reset (_ : linear) : linear := linear_init.
  (** damping.py:149-159 *)
  Definition linear_push (s : linear) (a : vec K) : linear :=
    let d := larrays s in
    let d := if length d =? 2 then ddel Nat.eq_dec (fold_right Nat.min (hd 0 (dkeys d)) (dkeys d)) d else d in
    mklin (dset Nat.eq_dec (lcounter s) a d) (S (lcounter s)).
  (** damping.py:161-170; [next(iter(..))] of an empty dictionary raises. *)
  Definition linear_extrapolate (factor : K) (s : linear) : result (vec K) :=
    match larrays s with
    | [] => Err RuntimeError
    | [(_, a)] => Ok a
    | [(k1, a1); (k2, a2)] =>
        let '(previous, current) := if k1 <=? k2 then (a1, a2) else (a2, a1) in
        Ok (vadd (vscale (rsub r1 factor) current) (vscale factor previous))
    | _ => Err ValueError
    end.
  (** damping.py:43-54 *)
  Definition linear_call (factor : K) (s : linear) (a : vec K) : result (linear * vec K) :=
    let s' := linear_push s a in
    match linear_extrapolate factor s' with Ok v => Ok (s', v) | Err e => Err e end.
  (** damping.py:101-111 *)
  Definition no_damping_call (a : vec K) : vec K := a.
End Linear.

Section DIIS.
  Variable K : rng.
  Variable gtb : K -> K -> bool.
  Variable nonzero : K -> bool.
  Variable lin_solve : list (list K) -> list K -> result (list K).
  Variables (space min_space : nat) (factor : K).
  Local Notation vec := (vec K).

  Definition pair_eq_dec : forall a b : Z * Z, {a = b} + {a <> b}.
  Proof. intros [a1 a2] [b1 b2]. destruct (Z.eq_dec a1 b1), (Z.eq_dec a2 b2); [left|right|right|right]; congruence. Defined.

  (** [_arrays], [_errors], [_counter], [_norm_cache] (damping.py:33-41, 204) *)
  Record diis := mkd { arrays : dict Z vec; errors : dict Z vec; counter : Z; cache : dict (Z * Z) K }.
  Definition diis_init : diis := mkd [] [] 0%Z [].
  (** damping.py:324-327 *)
  Definition diis_reset (_ : diis) : diis := diis_init.

  (** damping.py:206-225: returns the norm and the updated cache. *)
  Definition error_norm (errs : dict Z vec) (c : dict (Z * Z) K) (i j : Z) : result (K * dict (Z * Z) K) :=
    match dget pair_eq_dec (i, j) c with
    | Some x => Ok (x, c)
    | None => match dget Z.eq_dec i errs, dget Z.eq_dec j errs with
              | Some ei, Some ej =>
                  let x := vdot ei ej in
                  Ok (x, dset pair_eq_dec (j, i) x (dset pair_eq_dec (i, j) x c))
              | _, _ => Err KeyError
              end
    end.
  (** The comprehensions at damping.py:248-250 and 274-279, evaluated left to right with the cache threaded through. *)
  Fixpoint norm_list (errs : dict Z vec) (c : dict (Z * Z) K) (ps : list (Z * Z)) : result (list K * dict (Z * Z) K) :=
    match ps with
    | [] => Ok ([], c)
    | (i, j) :: ps' => match error_norm errs c i j with
                       | Err e => Err e
                       | Ok (x, c') => match norm_list errs c' ps' with Err e => Err e | Ok (xs, c'') => Ok (x :: xs, c'') end
                       end
    end.
  Fixpoint norm_rows (errs : dict Z vec) (c : dict (Z * Z) K) (is js : list Z) : result (list (list K) * dict (Z * Z) K) :=
    match is with
    | [] => Ok ([], c)
    | i :: is' => match norm_list errs c (map (pair i) js) with
                  | Err e => Err e
                  | Ok (r, c') => match norm_rows errs c' is' js with Err e => Err e | Ok (rs, c'') => Ok (r :: rs, c'') end
                  end
    end.

  (** [max(errors, key=errors.__getitem__)]: the first key whose value no later value exceeds (damping.py:251). *)
  Fixpoint max_key (best : Z) (x : K) (l : list (Z * K)) : Z :=
    match l with
    | [] => best
    | (k, y) :: l' => if gtb y x then max_key k y l' else max_key best x l'
    end.

  (** damping.py:227-253 *)
  Definition store (s : diis) (a e : vec) : result diis :=
    let arrs := dset Z.eq_dec (counter s) a (arrays s) in
    let errs := dset Z.eq_dec (counter s) e (errors s) in
    let n := (counter s + 1)%Z in
    if space <? length arrs then
      match norm_list errs (cache s) (map (fun k => (k, k)) (dkeys errs)) with
      | Err er => Err er
      | Ok (xs, c) =>
          match combine (dkeys errs) xs with
          | [] => Err ValueError
          | (k, x) :: l =>
              let m := max_key k x l in
              if dmem Z.eq_dec m arrs && dmem Z.eq_dec m errs
              then Ok (mkd (ddel Z.eq_dec m arrs) (ddel Z.eq_dec m errs) n c) else Err KeyError
          end
      end
    else Ok (mkd arrs errs n (cache s)).
  Definition diis_push (s : diis) (a : vec) (error : option vec) : result diis :=
    match error, dget Z.eq_dec (-1)%Z (arrays s) with
    | None, Some p => store s a (vsub a p)
    | None, None => Ok (mkd (dset Z.eq_dec (-1)%Z a (arrays s)) (errors s) (counter s) (cache s))
    | Some e, _ => if length (arrays s) =? 0
                   then Ok (mkd (dset Z.eq_dec (-1)%Z a (arrays s)) (errors s) (counter s) (cache s))
                   else store s a e
    end.

  (** [sorted(keys)] *)
  Fixpoint zinsert (x : Z) (l : list Z) : list Z :=
    match l with [] => [x] | y :: l' => if (x <=? y)%Z then x :: l else y :: zinsert x l' end.
  Definition zsort (l : list Z) : list Z := fold_right zinsert [] l.

  (** The bordered matrix and right-hand side (damping.py:280-287). *)
  Definition border (m : list (list K)) (size : nat) : list (list K) :=
    map (fun r => r ++ [ropp r1]) m ++ [repeat (ropp r1) size ++ [r0]].
  Definition residual (size : nat) : list K := repeat r0 size ++ [ropp r1].
  (** The loops at damping.py:306-311. *)
  Fixpoint accumulate (d : dict Z vec) (acc : vec) (l : list (Z * K)) : result vec :=
    match l with
    | [] => Ok acc
    | (k, c) :: l' => match dget Z.eq_dec k d with None => Err KeyError | Some a => accumulate d (vadd acc (vscale c a)) l' end
    end.
  Definition first_value (d : dict Z vec) : vec := match d with [] => [] | (_, v) :: _ => v end.

  (** damping.py:255-322.  With no stored error [numpy.block] raises. *)
  Definition diis_extrapolate (s : diis) : result (diis * vec) :=
    let counters := zsort (dkeys (errors s)) in
    let size := length counters in
    if size <? min_space then
      match dget Z.eq_dec (-1)%Z (arrays s) with None => Err KeyError | Some a => Ok (s, a) end
    else if size =? 0 then Err ValueError
    else
      match norm_rows (errors s) (cache s) counters counters with
      | Err e => Err e
      | Ok (m, cch) =>
        match lin_solve (border m size) (residual size) with
        | Err e => Err e
        | Ok c =>
          match accumulate (arrays s) (vzero (first_value (arrays s))) (combine counters c),
                accumulate (errors s) (vzero (first_value (errors s))) (combine counters c),
                dget Z.eq_dec (-1)%Z (arrays s) with
          | Ok a, Ok e, Some p =>
              let a := if nonzero factor then vadd (vscale (rsub r1 factor) a) (vscale factor p) else a in
              Ok (mkd (dset Z.eq_dec (counter s) a (dset Z.eq_dec (-1)%Z a (arrays s)))
                      (dset Z.eq_dec (counter s) e (errors s)) (counter s) cch, a)
          | _, _, _ => Err KeyError
          end
        end
      end.
  (** damping.py:43-54 *)
  Definition diis_call (s : diis) (a : vec) (error : option vec) : result (diis * vec) :=
    match diis_push s a error with Err e => Err e | Ok s' => diis_extrapolate s' end.

  (** A history of calls of one object; the outputs in order. *)
  Fixpoint diis_run (s : diis) (h : list (vec * option vec)) : result (diis * list vec) :=
    match h with
    | [] => Ok (s, [])
    | (a, e) :: h' => match diis_call s a e with
                      | Err x => Err x
                      | Ok (s', v) => match diis_run s' h' with Err x => Err x | Ok (s'', vs) => Ok (s'', v :: vs) end
                      end
    end.
  (** Direct use of the methods. *)
  Inductive dop := DPush (a : vec) (e : option vec) | DExtrapolate | DReset.
  Fixpoint diis_ops (s : diis) (h : list dop) : result diis :=
    match h with
    | [] => Ok s
    | DPush a e :: h' => match diis_push s a e with Err x => Err x | Ok s' => diis_ops s' h' end
    | DExtrapolate :: h' => match diis_extrapolate s with Err x => Err x | Ok (s', _) => diis_ops s' h' end
    | DReset :: h' => diis_ops (diis_reset s) h'
    end.
End DIIS.
