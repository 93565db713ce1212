(** Comparing the formulas computed by two generated functions. *)
From Coq Require Import ZArith QArith Qreduction Lia Ring Field.
From Verif Require Import Base Alg ArrModel ListAux EinsumModel EinsumSpec TensorModel CgModel CgSpec CgFormSpec CgProofs CgPoly CgPolyProofs CgPolyDom.
From Verif Require Import KernelProofs ArrProofs SymmProofs EinsumProofs EinsumThms EinPathThms TrilProofs.
Set Implicit Arguments.
Local Open Scope nat_scope.

(** Formulas as polynomials, the tensors being given by polynomials. *)
Section Compile.
  Variable opd : ref -> option (list cls * poly).
  Fixpoint operands (fs : list (ref * list nat)) : option (list (list nat * poly)) :=
    match fs with
    | [] => Some []
    | (x, ls) :: fs' =>
        match opd x, operands fs' with
        | Some (cs, q), Some r => if eql (map kind ls) cs && poly_ok (length cs) q then Some ((ls, q) :: r) else None
        | _, _ => None
        end
    end.
  Definition scaleT (a : Z) (d : positive) (t : term) : term := mkT (Qred (Qmult (a # d) (tq t))) (td t) (tf t).
  Definition compile1 (out : list nat) (m : monomial) : option (list term) :=
    match operands (snd m) with
    | None => None
    | Some ops =>
        let sl := summed (map snd (snd m)) out in
        if inclb out (concat (map snd (snd m)))
        then Some (map (scaleT (fst (fst m)) (snd (fst m))) (ein_terms (map kind sl) (out ++ sl) ops)) else None
    end.
  Fixpoint compile (out : list nat) (fm : formula) : option (list term) :=
    match fm with
    | [] => Some []
    | m :: fm' => match compile1 out m, compile out fm' with Some a, Some b => Some (a ++ b) | _, _ => None end
    end.
End Compile.

(** Tables as blocks of polynomials. *)
Section Blocks.
  Variable syms : pmap (list (list nat * bool)).
  Variable split : cls -> list cls.
  Variable opd : ref -> option (list cls * poly).
  Variable T : table.
  Fixpoint tblocks (x : ref) (pats : list (list cls)) : option blocks :=
    match pats with
    | [] => Some []
    | pat :: pats' =>
        match tblocks x pats' with
        | None => None
        | Some r =>
            match snd (lookup T x pat) with
            | [] => Some r
            | fm => if nodupb (fst (lookup T x pat)) then
                      match compile opd (fst (lookup T x pat)) fm with
                      | Some ts => Some (bcons pat (norm syms (length pat) ts) r)
                      | None => None
                      end
                    else None
            end
        end
    end.
  Fixpoint tinputs (ins : list (ref * list cls)) : option (list (ref * (list cls * blocks))) :=
    match ins with
    | [] => Some []
    | (x, cs) :: ins' =>
        match tblocks x (patterns split cs), tinputs ins' with
        | Some b, Some r => Some ((x, (cs, b)) :: r)
        | _, _ => None
        end
    end.
End Blocks.

(** Basis tensors and their symmetries. *)
Fixpoint kmap (B : list (ref * list cls)) : pmap (list cls) :=
  match B with [] => PL | (x, cs) :: B' => pset x (Some cs) (kmap B') end.
Definition atom (B : pmap (list cls)) (x : ref) : option (list cls * poly) :=
  match pget x B with Some cs => Some (cs, [mkT 1%Q [] [(x, seq 0 (length cs))]]) | None => None end.
Fixpoint smap (S : symmetries) : pmap (list (list nat * bool)) :=
  match S with [] => pset n_delta (Some [([1; 0], false)]) PL | (x, l) :: S' => pset x (Some l) (smap S') end.
Definition syms_ok (B : pmap (list cls)) (S : symmetries) : bool :=
  forallb (fun s => negb (Pos.eqb (fst s) n_delta) &&
    match pget (fst s) B with
    | Some cs => forallb (fun p => is_perm (length cs) (fst p) && eql (gather cs (fst p)) cs) (snd s)
    | None => false
    end) S.

(** Results. *)
Definition same (p q : poly) : bool := match padd p (map (scaleT (-1) 1) q) with [] => true | _ => false end.
Definition id_split (c : cls) : list cls := [c].
Fixpoint find_out (G : pmap (list cls * blocks)) (outs : list (ref * list cls)) (x : ref) : option (list cls * poly) :=
  match outs with
  | [] => None
  | (y, cs) :: outs' =>
      if Pos.eqb x y then match pget x G with Some (cs', b) => if eql cs' cs then Some (cs, bget cs b) else None | None => None end
      else find_out G outs' x
  end.
Definition result_ok (syms : pmap (list (list nat * bool))) (opd : ref -> option (list cls * poly)) (T : table) (x : ref) (pats : list (list cls)) (d : blocks) : bool :=
  match tblocks syms opd T x pats with
  | Some b => forallb (fun pat => same (bget pat d) (bget pat b)) pats
  | None => false
  end.

Definition compare (B : list (ref * list cls)) (S : symmetries) (Tp : table) (p : prog) (split : cls -> list cls) (Tq : table) (q : prog) (Tout : table) : bool :=
  let K := kmap B in
  let syms := smap S in
  syms_ok K S && (match pget n_delta K with None => true | _ => false end) &&
  match tinputs syms id_split (atom K) Tp (p_in p), tinputs syms split (atom K) Tq (p_in q) with
  | Some ip, Some iq =>
      match check (poly_ops syms id_split) (init (poly_ops syms id_split) ip PL) (p_body p),
            check (poly_ops syms split) (init (poly_ops syms split) iq PL) (p_body q) with
      | Some Gp, Some Gq =>
          check_outs (poly_ops syms id_split) (fun _ _ => true) Gp (p_out p) &&
          forallb (fun o => match pget (fst o) Gq with
                            | Some (cs, d) => eql cs (snd o) && result_ok syms (find_out Gp (p_out p)) Tout (fst o) (patterns split (snd o)) d
                            | None => false
                            end) (p_out q)
      | _, _ => false
      end
  | _, _ => false
  end.

(** The results are given by formulas in terms of the basis tensors. *)
Definition computes (B : list (ref * list cls)) (S : symmetries) (split : cls -> list cls) (T : table) (p : prog) (Tout : table) : bool :=
  let K := kmap B in
  let syms := smap S in
  syms_ok K S && (match pget n_delta K with None => true | _ => false end) &&
  match tinputs syms split (atom K) T (p_in p) with
  | Some ip =>
      match check (poly_ops syms split) (init (poly_ops syms split) ip PL) (p_body p) with
      | Some G =>
          forallb (fun o => match pget (fst o) G with
                            | Some (cs, d) => eql cs (snd o) && result_ok syms (atom K) Tout (fst o) (patterns split (snd o)) d
                            | None => false
                            end) (p_out p)
      | _ => false
      end
  | _ => false
  end.
