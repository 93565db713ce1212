(** Vocabulary for relations between the results of several calls. *)
From Coq Require Import List ZArith.
From Verif Require Import Base Alg ArrModel EinsumModel CgModel CgSpec CgFormSpec.
Import ListNotations.
Set Implicit Arguments.

(** Axes that are not divided into blocks. *)
Definition id_blocks (c : cls) : list cls := [c].

(** Names for several collections of tensors: [nm 0 x] is the tensor [x] of the first collection, [nm 1 x] that
    of the second, and so on.  The first one is always that of the given tensors; the next ones are the results
    of the calls. *)
Fixpoint nm (k : nat) (x : ref) : ref := match k with 0 => xO x | S k' => xI (nm k' x) end.
Fixpoint together {A} (l : list (ref -> option A)) (y : ref) : option A :=
  match l, y with
  | f :: _, xO x => f x
  | _ :: l', xI y' => together l' y'
  | _, _ => None
  end.

Section Spec.
  Variable F : fld.
  Local Open Scope rng_scope.
  (** A function is called with the arguments that a table gives in terms of the tensors [eB]. *)
  Definition called_with (sz : cls -> nat) (eB : env F) (T : table) (p : prog) (e : env F) : Prop :=
    args_ok sz (p_in p) e /\ forall x cs, In (x, cs) (p_in p) -> given_by sz id_blocks T eB x cs (tens F (e x)).
  (** The same tensors, with the number [v] for the tensor [x] without indices. *)
  Definition with_number (eB : env F) (x : ref) (v : F) : env F := bindv eB x (Some (full [] v)).
  (** The polynomial sum_k c_k x^k, given as a list of pairs (k, c_k). *)
  Definition polynomial (l : list (nat * F)) (x : F) : F := rsum (map (fun kc => rpow x (fst kc) * snd kc) l).
End Spec.
