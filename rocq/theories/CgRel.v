(** Relations between the results of several generated functions and the tensors they are called with. *)
From Coq Require Import List ZArith QArith.
From Verif Require Import Base Alg ArrModel EinsumModel CgModel CgSpec CgFormSpec CgProofs CgPoly CgCompare CgRelSpec.
Import ListNotations.
Set Implicit Arguments.
Local Open Scope nat_scope.

Section Calls.
  Variable B : list (ref * list cls).
  Variable S : symmetries.
  Definition sym_call (c : table * prog) : option (ref -> option (list cls * poly)) :=
    match tinputs (smap S) id_split (atom (kmap B)) (fst c) (p_in (snd c)) with
    | Some i =>
        match check (poly_ops (smap S) id_split) (init (poly_ops (smap S) id_split) i PL) (p_body (snd c)) with
        | Some G => if check_outs (poly_ops (smap S) id_split) (fun _ _ => true) G (p_out (snd c)) then Some (find_out G (p_out (snd c))) else None
        | None => None
        end
    | None => None
    end.
  Fixpoint sym_calls (cs : list (table * prog)) : option (list (ref -> option (list cls * poly))) :=
    match cs with
    | [] => Some []
    | c :: cs' => match sym_call c, sym_calls cs' with Some a, Some l => Some (a :: l) | _, _ => None end
    end.
  (** The polynomial of a formula in the basis tensors and the results of the calls. *)
  Definition relation (cs : list (table * prog)) (out : list nat) (fm : formula) : option poly :=
    if syms_ok (kmap B) S && (match pget n_delta (kmap B) with None => true | _ => false end) then
      if nodupb out then
        match sym_calls cs with
        | Some l => match compile (together (atom (kmap B) :: l)) out fm with Some ts => Some (norm (smap S) (length out) ts) | None => None end
        | None => None
        end
      else None
    else None.
  Definition vanishes (cs : list (table * prog)) (out : list nat) (fm : formula) : bool :=
    match relation cs out fm with Some [] => true | _ => false end.
End Calls.

(** Powers of a scalar [eps]. *)
Definition eps_degree (eps : ref) (fs : list fac) : nat := length (filter (fun f => Pos.eqb (fst f) eps) fs).
Definition eps_scalar (eps : ref) (fs : list fac) : bool := forallb (fun f => if Pos.eqb (fst f) eps then match snd f with [] => true | _ => false end else true) fs.
Definition no_linear (eps : ref) (p : poly) : bool := forallb (fun t => eps_scalar eps (tf t) && negb (eps_degree eps (tf t) =? 1)) p.
Definition fresh_symmetries (eps : ref) (S : symmetries) : bool := forallb (fun s => negb (Pos.eqb (fst s) eps)) S.
Definition fresh_formula (eps : ref) (fm : formula) : bool := forallb (fun m : monomial => forallb (fun f => negb (Pos.eqb (fst f) eps)) (snd m)) fm.
Definition fresh_table (eps : ref) (T : table) : bool := forallb (fun r : ref * (list nat * formula) => fresh_formula eps (snd (snd r))) T.
(** The formula [L] minus [eps] times the formula [D] has no term of first order in [eps]. *)
Definition slope_ok (B : list (ref * list cls)) (S : symmetries) (eps : ref) (cs : list (table * prog)) (L D : formula) : bool :=
  if syms_ok (kmap B) S && (match pget n_delta (kmap B) with None => true | _ => false end) && negb (Pos.eqb eps n_delta)
     && (match pget eps (kmap B) with Some [] => true | _ => false end)
  then match sym_calls B S cs with
       | Some l =>
           let opd := together (atom (kmap B) :: l) in
           match compile opd [] L, compile opd [] D with
           | Some a, Some b => no_linear eps (norm (smap S) 0 (a ++ map (fun t => mkT (Qopp (tq t)) (td t) ((eps, []) :: tf t)) b))
           | _, _ => false
           end
       | None => false
       end
  else false.
