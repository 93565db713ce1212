(** Vocabulary for damping and DIIS: affine combinations and textbook DIIS without dictionaries or cached norms. *)
From Verif Require Import Base Alg DampModel.
Set Implicit Arguments.
Local Open Scope nat_scope.
Local Open Scope list_scope.

Section Spec.
  Variable K : rng.
  Local Notation vec := (vec K).

  (** [c1*x1 + c2*x2 + ...], vectors of length [n]. *)
  Fixpoint lincomb (n : nat) (cs : list K) (xs : list vec) : vec :=
    match cs, xs with
    | c :: cs', x :: xs' => vadd (vscale c x) (lincomb n cs' xs')
    | _, _ => repeat r0 n
    end.
  (** [y] is a combination of the vectors [xs] with coefficients summing to one. *)
  Definition affine (n : nat) (xs : list vec) (y : vec) : Prop :=
    exists cs, length cs = length xs /\ rsum cs = r1 /\ y = lincomb n cs xs.

  (** Matrix times vector, for a solver that satisfies the equations it is given. *)
  Definition mat_vec (m : list (list K)) (c : list K) : list K := map (fun r => vdot r c) m.
  Definition solves (f : list (list K) -> list K -> result (list K)) : Prop :=
    forall m b c, f m b = Ok c -> length c = length m /\ mat_vec m c = b.

  (** What linear damping should return: the first vector, then the mixture of each vector with the one before it. *)
  Fixpoint mixtures (factor : K) (previous : vec) (l : list vec) : list vec :=
    match l with
    | [] => []
    | x :: l' => vadd (vscale (rsub r1 factor) x) (vscale factor previous) :: mixtures factor x l'
    end.
  Definition damped (factor : K) (l : list vec) : list vec :=
    match l with [] => [] | x :: l' => x :: mixtures factor x l' end.
  Fixpoint linear_run (factor : K) (s : linear K) (l : list vec) : result (linear K * list vec) :=
    match l with
    | [] => Ok (s, [])
    | x :: l' => match linear_call factor s x with
                 | Err e => Err e
                 | Ok (s', v) => match linear_run factor s' l' with Err e => Err e | Ok (s'', vs) => Ok (s'', v :: vs) end
                 end
    end.

  (** Textbook DIIS: the previous vector and the list of (vector, error) pairs kept. *)
  Variable gtb : K -> K -> bool.
  Variable nonzero : K -> bool.
  Variable lin_solve : list (list K) -> list K -> result (list K).
  Variables (space min_space : nat) (factor : K).

  Record book := mkb { previous : option vec; kept : list (vec * vec) }.
  Definition sqnorm (p : vec * vec) : K := vdot (snd p) (snd p).
  (** Position of the first pair of largest error. *)
  Fixpoint worst (best i : nat) (x : K) (l : list (vec * vec)) : nat :=
    match l with
    | [] => best
    | p :: l' => if gtb (sqnorm p) x then worst i (S i) (sqnorm p) l' else worst best (S i) x l'
    end.
  Definition remove_nth {A} (n : nat) (l : list A) : list A := firstn n l ++ skipn (S n) l.
  Definition drop_worst (l : list (vec * vec)) : list (vec * vec) :=
    match l with [] => [] | p :: l' => remove_nth (worst 0 1 (sqnorm p) l') l end.
  (** Keep a new pair, dropping the worst if more than [space] vectors (with the previous one) would be kept. *)
  Definition keep (l : list (vec * vec)) (p : vec * vec) : list (vec * vec) :=
    let l := l ++ [p] in if space <? S (length l) then drop_worst l else l.
  Definition gram (l : list (vec * vec)) : list (list K) := map (fun p => map (fun q => vdot (snd p) (snd q)) l) l.
  Fixpoint weighted (acc : vec) (xs : list vec) (cs : list K) : vec :=
    match xs, cs with x :: xs', c :: cs' => weighted (vadd acc (vscale c x)) xs' cs' | _, _ => acc end.

  Definition book_call (s : book) (a : vec) (error : option vec) : result (book * vec) :=
    let s' := match previous s with
              | None => mkb (Some a) (kept s)
              | Some p => mkb (Some p) (keep (kept s) (a, match error with Some e => e | None => vsub a p end))
              end in
    match previous s' with
    | None => Err KeyError
    | Some p =>
        let size := length (kept s') in
        if size <? min_space then Ok (s', p)
        else if size =? 0 then Err ValueError
        else match lin_solve (border K (gram (kept s')) size) (residual K size) with
             | Err e => Err e
             | Ok c => let y := weighted (vzero p) (map fst (kept s')) c in
                       let y := if nonzero factor then vadd (vscale (rsub r1 factor) y) (vscale factor p) else y in
                       Ok (mkb (Some y) (kept s'), y)
             end
    end.
  Fixpoint book_run (s : book) (h : list (vec * option vec)) : result (list vec) :=
    match h with
    | [] => Ok []
    | (a, e) :: h' => match book_call s a e with
                      | Err x => Err x
                      | Ok (s', v) => match book_run s' h' with Err x => Err x | Ok vs => Ok (v :: vs) end
                      end
    end.
End Spec.
