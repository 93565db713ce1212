(** Vocabulary for stating which formula a generated function computes. *)
From Coq Require Import PArith ZArith.
From Verif Require Import Base Alg ArrModel EinsumModel CgModel CgSpec.
Set Implicit Arguments.

(** A formula: a sum of terms, each a rational number times a product of named tensors with labels;
    every label that is not an index of the result is summed over.  The kind of label [l] is [l / 10]:
    labels 0-9 run over occupied orbitals, 10-19 over virtual orbitals, 40-49 over occupied alpha
    orbitals, and so on ([CgModel.cls]). *)
Definition monomial := ((Z * positive) * list (ref * list nat))%type.
Definition formula := list monomial.
Definition mono (num : Z) (den : positive) (fs : list (ref * list nat)) : monomial := ((num, den), fs).
Definition kind (l : nat) : cls := l / 10.

(** Formulas for tensors, or for their blocks: name, labels of the indices, formula. *)
Definition table := list (ref * (list nat * formula)).
Fixpoint lookup (T : table) (x : ref) (pat : list cls) : list nat * formula :=
  match T with
  | [] => (pat, [])
  | (y, (out, fm)) :: T' =>
      if Pos.eqb x y then if list_eq_dec Nat.eq_dec (map kind out) pat then (out, fm) else lookup T' x pat
      else lookup T' x pat
  end.

(** Some literals of the generated code carry rounding errors of the code generator, such as
    2.00000000000002 or 0.3333333333333333.  [rounded p] is [p] with every literal that is within 10^-11 of
    a multiple of 1/5040 replaced by that multiple. *)
Definition rounded_literal (num : Z) (den : positive) : Z * positive :=
  let r := ((2 * 5040 * num + Zpos den) / (2 * Zpos den))%Z in
  if (Z.abs (r * Zpos den - 5040 * num) * 10 ^ 11 <=? 5040 * Zpos den)%Z then (r, 5040%positive) else (num, den).
Definition rounded_expr (e : expr) : expr :=
  match e with
  | Plain r => Plain r
  | Times r num den => Times r (fst (rounded_literal num den)) (snd (rounded_literal num den))
  end.
Definition rounded_stmt (s : stmt) : stmt :=
  match s with
  | Assign x e => Assign x (rounded_expr e)
  | AddTo x e => AddTo x (rounded_expr e)
  | SubFrom x e => SubFrom x (rounded_expr e)
  | Del x => Del x
  end.
Definition rounded (p : prog) : prog := mkprog (p_in p) (map rounded_stmt (p_body p)) (p_out p).

Section Spec.
  Variable F : fld.
  Local Open Scope rng_scope.

  Definition characteristic_zero : Prop := forall n, @rnat F (S n) <> 0.

  Variable sz : cls -> nat.
  (** The value of a formula for given values of the tensors. *)
  Definition value (e : env F) (out : list nat) (fm : formula) (idx : list nat) : F :=
    rsum (map (fun m => coef F (fst (fst m)) (snd (fst m)) *
                        ein F (fun l => sz (kind l)) (map snd (snd m)) out (map (fun f => tens F (e (fst f))) (snd m)) idx) fm).

  (** The orbitals of a kind can be divided into blocks (alpha, then beta): [split c] lists the kinds of
      the blocks of kind [c].  Position of the [i]-th orbital of block [b] among those of kind [c]. *)
  Variable split : cls -> list cls.
  Definition splits : Prop := forall c, NoDup (split c) /\ sz c = list_sum (map sz (split c)).
  Fixpoint offset (bs : list cls) (b : cls) : nat :=
    match bs with [] => 0 | b' :: bs' => if (b =? b')%nat then 0 else sz b' + offset bs' b end.
  Definition places (cs pat idx : list nat) : list nat :=
    map (fun p => offset (split (fst p)) (fst (snd p)) + snd (snd p))%nat (combine cs (combine pat idx)).
  Definition patterns (cs : list cls) : list (list cls) := product (map split cs).

  (** Every block of the tensor [f], with axes of kinds [cs], is given by the formula for [x] in the table
      (zero if there is none). *)
  Definition given_by (T : table) (e : env F) (x : ref) (cs : list cls) (f : list nat -> F) : Prop :=
    forall pat idx, In pat (patterns cs) -> inb (map sz pat) idx ->
      f (places cs pat idx) = value e (fst (lookup T x pat)) (snd (lookup T x pat)) idx.

  (** Symmetries: permuting the indices of [x] changes nothing, or the sign. *)
  Definition symmetries := list (ref * list (list nat * bool)).
  Definition symmetric (S : symmetries) (ins : list (ref * list cls)) (e : env F) : Prop :=
    forall x cs l axes neg, In (x, cs) ins -> In (x, l) S -> In (axes, neg) l ->
      forall idx, inb (map sz cs) idx -> tens F (e x) (map (fun i => nth i idx 0%nat) axes) = rsign neg (tens F (e x) idx).

  (** Results of a function, by name. *)
  Fixpoint results (outs : list (ref * list cls)) (rs : list (arr F)) : env F :=
    match outs, rs with
    | (x, _) :: outs', r :: rs' => bindv (results outs' rs') x (Some r)
    | _, _ => fun _ => None
    end.
End Spec.
