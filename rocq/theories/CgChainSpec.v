(** Matrix-vector products of the equation-of-motion methods: one function computes intermediates, a second one is called
    with them for every vector (ebcc/eom/base.py: [matvec_intermediates], [matvec]). *)
From Coq Require Import List ZArith.
From Verif Require Import Base Alg ArrModel EinsumModel CgModel CgNames.
Import ListNotations.
Set Implicit Arguments.

(** The dictionary of intermediates as the argument [ints]: [ints.tmp3] is what the first function returned as [tmp3]. *)
Definition is_temporary (x : ref) : option positive := match x with xI (xO n) => Some n | _ => None end.
Definition is_intermediate (x : ref) : option positive := match x with xI (xI n) => Some n | _ => None end.
Section With.
  Variable F : fld.
  Fixpoint with_ints (outs : list (ref * list cls)) (ints : list (arr F)) (e : env F) : env F :=
    match outs, ints with
    | (x, _) :: outs', r :: ints' =>
        match is_temporary x with Some n => bindv (with_ints outs' ints' e) (IT n) (Some r) | None => with_ints outs' ints' e end
    | _, _ => e
    end.
End With.

(** The arguments of both functions other than the intermediates; both are called with the same keyword arguments. *)
Definition product_arguments (p q : prog) : list (ref * list cls) :=
  p_in p ++ filter (fun i => match is_intermediate (fst i) with Some _ => false | None => true end) (p_in q).
(** Called with the arguments [e], [p] returns intermediates and [q], called with them and [e], returns [r]. *)
Definition product_is {F : fld} method path sz (p q : prog) (e : env F) (r : list (arr F)) : Prop :=
  exists ints, run method path sz p e = Ok ints /\ run method path sz q (with_ints (p_out p) ints e) = Ok r.
