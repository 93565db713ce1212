(** The generated equations (ebcc/codegen/*.py).  Every function there is a straight-line sequence of
    statements  x = e,  x += e,  x -= e,  del x  where e is einsum, np.transpose, np.copy, np.zeros or
    np.eye, possibly times a literal.  This file gives the syntax of such programs and their meaning on
    arrays; the programs themselves are in the Cg_* files, translated statement by statement from the
    source by tools/translate_codegen.py. *)
From Verif Require Import Base Alg ArrModel TensorModel EinsumModel EinPathModel.
From Coq Require Import ZArith String.
Set Implicit Arguments.
Local Open Scope py_scope.

(** Names of arrays: keyword arguments ("t2", "v.ovov"), intermediates ("tmp0") and results ("t2new").
    A field of a Namespace is a name of its own. *)
Definition ref := positive.
(** Kinds of axes: occupied, virtual, auxiliary, bosonic; with spin; active. *)
Definition cls := nat.

Inductive rhs :=
| Einsum (fs : list (ref * list nat)) (out : list nat)   (* einsum(x, (..), y, (..), .., out) *)
| Transpose (x : ref) (axes : list nat)                  (* np.transpose(x, axes), np.copy of it *)
| Copy (x : ref)                                         (* np.copy(x), x *)
| Zeros (cs : list cls)                                  (* np.zeros((..)) *)
| Eye (c : cls).                                         (* np.eye(n) *)
Inductive expr :=
| Plain (r : rhs)
| Times (r : rhs) (num : Z) (den : positive).            (* r * literal *)
Inductive stmt :=
| Assign (x : ref) (e : expr)
| AddTo (x : ref) (e : expr)
| SubFrom (x : ref) (e : expr)
| Del (x : ref).

(** A function: its array arguments with the kinds of their axes, its body and what it returns. *)
Record prog := mkprog { p_in : list (ref * list cls); p_body : list stmt; p_out : list (ref * list cls) }.

Section Exec.
  Variable F : fld.
  (** The configured contraction method (None: numpy, Some n: ttgt above size n) and the path numpy's
      optimiser chooses for given subscripts and shapes (einsumfunc.py:515-526). *)
  Variable method : option nat.
  Variable path : list (list nat) -> list nat -> list (list nat) -> list contraction.
  (** Number of orbitals etc. of each kind. *)
  Variable sz : cls -> nat.
  Local Open Scope rng_scope.

  Definition env := ref -> option (arr F).
  Definition bindv (e : env) (x : ref) (v : option (arr F)) : env := fun y => if Pos.eqb y x then v else e y.
  Definition fetch (e : env) (x : ref) : result (arr F) := match e x with Some a => Ok a | None => Err NameError end.
  (** The value of a literal. *)
  Definition coef (num : Z) (den : positive) : F := fdiv (rZ num) (rZ (Zpos den)).

  Definition eval_rhs (e : env) (r : rhs) : result (arr F) :=
    match r with
    | Einsum fs out => ops <- mapM (fun f => fetch e (fst f)) fs ;;
                       einsum_lists F method false true (path (map snd fs) out (map (@shp F) ops)) (map snd fs) (Some out) ops 1 0 None
    | Transpose x axes => a <- fetch e x ;; transpose 0 a axes
    | Copy x => fetch e x
    | Zeros cs => Ok (full (map sz cs) 0)
    | Eye c => Ok (tab [sz c; sz c] (fun idx => if (nth 0 idx 0 =? nth 1 idx 0)%nat then 1 else 0))
    end.
  Definition eval_expr (e : env) (x : expr) : result (arr F) :=
    match x with
    | Plain r => eval_rhs e r
    | Times r num den => a <- eval_rhs e r ;; Ok (arr_scale F (coef num den) a)
    end.
  (** In-place addition needs equal shapes (broadcasting is not modelled and never used). *)
  Definition exec1 (e : env) (s : stmt) : result env :=
    match s with
    | Assign x r => a <- eval_expr e r ;; Ok (bindv e x (Some a))
    | AddTo x r => b <- fetch e x ;; a <- eval_expr e r ;; c <- arr_addM F b a ;; Ok (bindv e x (Some c))
    | SubFrom x r => b <- fetch e x ;; a <- eval_expr e r ;; c <- arr_addM F b (arr_scale F (- (1)) a) ;; Ok (bindv e x (Some c))
    | Del x => _ <- fetch e x ;; Ok (bindv e x None)
    end.
  Fixpoint exec (e : env) (body : list stmt) : result env :=
    match body with [] => Ok e | s :: body' => e' <- exec1 e s ;; exec e' body' end.
  (** Running a function: the arrays it returns, in order. *)
  Definition run (p : prog) (e : env) : result (list (arr F)) :=
    e' <- exec e (p_body p) ;; mapM (fun x => fetch e' (fst x)) (p_out p).
End Exec.
