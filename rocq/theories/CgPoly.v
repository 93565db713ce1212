(** Tensor polynomials: sums of products of named tensors with contracted indices, in a normal form.
    Used to compute, for each array of a generated function, the formula it holds in terms of the
    arguments ([CgPolyProofs] proves this correct). *)
From Coq Require Import ZArith QArith Qreduction.
From Verif Require Import Base Alg ArrModel EinsumModel TensorModel CgModel CgSpec CgFormSpec CgProofs.
Set Implicit Arguments.
Local Open Scope nat_scope.

(** A tensor with labels, and a term  q * sum over the labels n, n+1, .. of the product of tensors.
    The labels below n are those of the axes of the array. *)
Definition fac := (ref * list nat)%type.
Record term := mkT { tq : Q; td : list cls; tf : list fac }.
Definition poly := list term.

(** Comparison. *)
Fixpoint cmpl (a b : list nat) : comparison :=
  match a, b with
  | [], [] => Eq
  | [], _ => Lt
  | _, [] => Gt
  | x :: a', y :: b' => match Nat.compare x y with Eq => cmpl a' b' | c => c end
  end.
Definition cmpf (a b : fac) : comparison :=
  match Pos.compare (fst a) (fst b) with Eq => cmpl (snd a) (snd b) | c => c end.
Fixpoint cmpfs (a b : list fac) : comparison :=
  match a, b with
  | [], [] => Eq
  | [], _ => Lt
  | _, [] => Gt
  | x :: a', y :: b' => match cmpf x y with Eq => cmpfs a' b' | c => c end
  end.
Definition cmpt (a b : term) : comparison :=
  match cmpfs (tf a) (tf b) with Eq => cmpl (td a) (td b) | c => c end.

(** Sums. *)
Fixpoint padd (p : poly) : poly -> poly :=
  fix aux q :=
    match p, q with
    | [], _ => q
    | _, [] => p
    | a :: p', b :: q' =>
        match cmpt a b with
        | Lt => a :: padd p' q
        | Gt => b :: aux q'
        | Eq => let c := Qred (Qplus (tq a) (tq b)) in
                if Z.eqb (Qnum c) 0 then padd p' q' else mkT c (td a) (tf a) :: padd p' q'
        end
    end.
Fixpoint pairup (l : list poly) : list poly :=
  match l with a :: b :: l' => padd a b :: pairup l' | _ => l end.
Fixpoint psum (fuel : nat) (l : list poly) : poly :=
  match l with
  | [] => []
  | [a] => a
  | _ => match fuel with 0 => fold_right padd [] l | S f => psum f (pairup l) end
  end.

(** Normal form of a term: choose the order of the tensors, an equivalent order of the axes of each
    and the numbering of the summed labels such that the result is lexicographically least. *)
Section Canon.
  Variable syms : pmap (list (list nat * bool)).
  Variable n : nat.

  Fixpoint encode (asg : list (nat * nat)) (next : nat) (ls : list nat) : list nat * list (nat * nat) * nat :=
    match ls with
    | [] => ([], asg, next)
    | l :: ls' =>
        if l <? n then let '(r, a, k) := encode asg next ls' in (l :: r, a, k)
        else match lkind asg l with
             | Some m => let '(r, a, k) := encode asg next ls' in (m :: r, a, k)
             | None => let '(r, a, k) := encode ((l, next) :: asg) (S next) ls' in (next :: r, a, k)
             end
    end.
  Definition gather (ls ax : list nat) : list nat := map (fun i => nth i ls 0) ax.
  Definition images (x : ref) (ls : list nat) : list (list nat * bool) :=
    (ls, false) ::
    match pget x syms with
    | Some l => map (fun p => (gather ls (fst p), snd p)) (filter (fun p => length (fst p) =? length ls) l)
    | None => []
    end.
  Fixpoint picks {A} (l : list A) : list (A * list A) :=
    match l with [] => [] | x :: l' => (x, l') :: map (fun p => (fst p, x :: snd p)) (picks l') end.
  Record state := mkst { s_asg : list (nat * nat); s_next : nat; s_done : list fac; s_rem : list fac; s_neg : bool }.
  Fixpoint minname (m : ref) (l : list fac) : ref := match l with [] => m | f :: l' => minname (Pos.min m (fst f)) l' end.
  (** The same as [encode], but gives up (None) as soon as the result is greater than [cur]; the flag tells
      whether it is less. *)
  Fixpoint encode_below (cur : list nat) (asg : list (nat * nat)) (next : nat) (ls : list nat) : option (bool * (list nat * list (nat * nat) * nat)) :=
    match ls with
    | [] => Some (false, ([], asg, next))
    | l :: ls' =>
        let '(m, asg', next') := if l <? n then (l, asg, next)
                                 else match lkind asg l with Some m => (m, asg, next) | None => (next, (l, next) :: asg, S next) end in
        match cur with
        | [] => None
        | c :: cur' =>
            match Nat.compare m c with
            | Gt => None
            | Lt => let '(r, a, k) := encode asg' next' ls' in Some (true, (m :: r, a, k))
            | Eq => match encode_below cur' asg' next' ls' with
                    | None => None
                    | Some (b, (r, a, k)) => Some (b, (m :: r, a, k))
                    end
            end
        end
    end.
  (** Least encoding so far and the states that reach it. *)
  Definition found := option (fac * list state).
  Definition try_image (s : state) (x : ref) (rem : list fac) (cur : found) (im : list nat * bool) : found :=
    let st a k := mkst a k ((x, fst im) :: s_done s) rem (xorb (s_neg s) (snd im)) in
    let fresh := let '(enc, a, k) := encode (s_asg s) (s_next s) (fst im) in Some ((x, enc), [st a k]) in
    match cur with
    | None => fresh
    | Some ((y, enc), acc) =>
        match Pos.compare x y with
        | Gt => cur
        | Lt => fresh
        | Eq => match encode_below enc (s_asg s) (s_next s) (fst im) with
                | None => cur
                | Some (true, (enc', a, k)) => Some ((x, enc'), [st a k])
                | Some (false, (_, a, k)) => Some ((y, enc), st a k :: acc)
                end
        end
    end.
  Definition try_state (cur : found) (s : state) : found :=
    match s_rem s with
    | [] => cur
    | f0 :: fs =>
        let m := minname (fst f0) fs in
        fold_left (fun cur p =>
          if Pos.eqb (fst (fst p)) m then fold_left (try_image s m (snd p)) (images m (snd (fst p))) cur else cur) (picks (s_rem s)) cur
    end.
  Fixpoint search (m : nat) (sts : list state) : list state :=
    match m with
    | 0 => sts
    | S m' => match fold_left try_state sts None with None => [] | Some (_, sts') => search m' sts' end
    end.

  Definition relabel (pi : list nat) (l : nat) : nat :=
    if l <? n then l else match index_of (l - n) pi with Some j => n + j | None => l end.
  Definition finish (t : term) (s : state) : term :=
    let pi := rev (map (fun p => fst p - n) (s_asg s)) in
    if is_perm (length (td t)) pi && match s_rem s with [] => true | _ => false end then
      mkT (if s_neg s then Qopp (tq t) else tq t) (gather (td t) pi)
          (map (fun f => (fst f, map (relabel pi) (snd f))) (rev (s_done s)))
    else t.
  Definition canon (t : term) : poly :=
    match search (length (tf t)) [mkst [] n [] (tf t) false] with
    | [] => [t]
    | s :: rest =>
        let c := finish t s in
        if existsb (fun s' => let c' := finish t s' in
             match cmpt c c' with Eq => Z.eqb (Qnum (Qred (Qplus (tq c) (tq c')))) 0 | _ => false end)
             (filter (fun s' => negb (Bool.eqb (s_neg s) (s_neg s'))) rest)
        then [] else [c]
    end.
  Definition norm (ts : list term) : poly := psum (length ts) (map canon ts).
End Canon.

(** Products: [labs] are the labels of a contraction. *)
Definition posn (labs : list nat) (l : nat) : nat := match index_of l labs with Some i => i | None => 0 end.
Definition mulT (labs ls : list nat) (a t : term) : term :=
  let k := length ls in
  let b := length labs + length (td a) in
  let ps := map (posn labs) ls in
  mkT (Qred (Qmult (tq a) (tq t))) (td a ++ td t)
      (tf a ++ map (fun f => (fst f, map (fun l => if l <? k then nth l ps 0 else b + (l - k)) (snd f))) (tf t)).
Fixpoint pprod (labs : list nat) (acc : list term) (ops : list (list nat * poly)) : list term :=
  match ops with
  | [] => acc
  | (ls, p) :: ops' => pprod labs (flat_map (fun a => map (mulT labs ls a) p) acc) ops'
  end.
Definition close (cs : list cls) (t : term) : term := mkT (tq t) (cs ++ td t) (tf t).
(** All labels are in range. *)
Definition term_ok (k : nat) (t : term) : bool :=
  forallb (fun f => forallb (fun l => l <? k + length (td t)) (snd f)) (tf t).
Definition poly_ok (k : nat) (p : poly) : bool := forallb (term_ok k) p.

(** The terms of a contraction, the labels having given kinds. *)
Definition ein_terms (scs : list cls) (labs : list nat) (ops : list (list nat * poly)) : list term :=
  map (close scs) (pprod labs [mkT 1%Q [] []] ops).

(** Arrays whose axes are divided into blocks: one polynomial per block. *)
Definition blocks := list (list cls * poly).
Fixpoint bget (pat : list cls) (b : blocks) : poly :=
  match b with [] => [] | (q, p) :: b' => if eql pat q then p else bget pat b' end.
Definition bcons (pat : list cls) (p : poly) (b : blocks) : blocks := match p with [] => b | _ => (pat, p) :: b end.

Section Ops.
  Variable syms : pmap (list (list nat * bool)).
  Variable split : cls -> list cls.

  (** The name of the Kronecker delta. *)
  Definition n_delta : ref := xH.

  Definition poly_ein (fs : list (list nat * (list cls * blocks))) (out : list nat) : option blocks :=
    match all_kinds (map (fun f => (fst f, fst (snd f))) fs) [] with
    | None => None
    | Some lt =>
        if forallb (fun f => forallb (fun b => poly_ok (length (fst f)) (snd b)) (snd (snd f))) fs then
          let sl := summed (map fst fs) out in
          let labs := out ++ sl in
          Some (fold_right (fun opat r =>
                  bcons opat
                    (norm syms (length out)
                      (flat_map (fun spat =>
                        let kd := kind_of (combine labs (opat ++ spat)) in
                        ein_terms spat labs (map (fun f => (fst f, bget (map kd (fst f)) (snd (snd f)))) fs))
                       (patterns split (map (kind_of lt) sl)))) r)
                [] (patterns split (map (kind_of lt) out)))
        else None
    end.
  Definition poly_scale (a : Z) (d : positive) (b : blocks) : option blocks :=
    if Z.eqb a 0 then Some [] else
    Some (map (fun p => (fst p, map (fun t => mkT (Qred (Qmult (a # d) (tq t))) (td t) (tf t)) (snd p))) b).
  Definition poly_add (a b : blocks) : option blocks :=
    Some (fold_right (fun pat r => bcons pat (padd (bget pat a) (bget pat b)) r) []
           (map fst a ++ filter (fun q => negb (existsb (eql q) (map fst a))) (map fst b))).
  Definition poly_eye (c : cls) : option blocks :=
    Some (map (fun b => ([b; b], [mkT 1%Q [] [(n_delta, [0; 1])]])) (split c)).
  Definition poly_ops : dops := @mkops blocks poly_ein poly_scale poly_add (fun _ => Some []) poly_eye.
End Ops.
