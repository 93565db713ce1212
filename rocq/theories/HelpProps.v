(** C83: the helper functions argsort, prod and regularise_tuple. *)
From Coq Require Import ZArith Permutation.
From Verif Require Import Base ArrModel MiscModel HelpProofs.
Local Open Scope list_scope.
Local Open Scope nat_scope.

(** For all values, argsort lists every position once, in the order of the values; positions of equal values keep their order. *)
Theorem C83_argsort : forall vals : list nat, Permutation (seq 0 (length vals)) (argsort vals) /\
  forall p q, p < q < length vals -> let i := nth p (argsort vals) 0 in let j := nth q (argsort vals) 0 in
    nth i vals 0 < nth j vals 0 \/ nth i vals 0 = nth j vals 0 /\ i < j.
Proof. exact argsort_positions. Qed.
Print Assumptions C83_argsort.
(** prod is the product of the integers: 1 for none, multiplicative, and independent of their order. *)
Theorem C83_prod : prod_ints [] = 1%Z /\ (forall x, prod_ints [x] = x) /\ (forall l l', prod_ints (l ++ l') = (prod_ints l * prod_ints l')%Z) /\
  (forall l l', Permutation l l' -> prod_ints l = prod_ints l').
Proof. exact prod_rules. Qed.
Print Assumptions C83_prod.
(** regularise_tuple returns the same for items passed separately and as one tuple; nothing that is passed is dropped: a tuple followed by
    more arguments is refused, and whenever it returns [out], it was called with the items of [out] or with [out]. *)
Theorem C83_regularise_tuple : forall A : Type,
  (forall (x : A) rest, regularise_tuple (Item x :: rest) = Ok (Item x :: rest) /\ regularise_tuple [Tup (Item x :: rest)] = Ok (Item x :: rest)) /\
  (forall (l : list (arg A)) y rest, regularise_tuple (Tup l :: y :: rest) = Err ValueError) /\
  (forall (args out : list (arg A)), regularise_tuple args = Ok out -> args = out \/ args = [Tup out]).
Proof. exact (fun A => conj (@regularise_forms A) (conj (@regularise_fails A) (@regularise_all A))). Qed.
Print Assumptions C83_regularise_tuple.
(** One item that is itself a tuple cannot be passed separately: it is taken apart. *)
Theorem C83_single_tuple_item_refuted : exists x : arg nat, regularise_tuple [Tup [x]] = Ok [x] /\ regularise_tuple [x] <> Ok [x].
Proof. exists (Tup [Item 1; Item 2]). split; [reflexivity|discriminate]. Qed.
Print Assumptions C83_single_tuple_item_refuted.
Example C83_case : argsort [3; 1; 3; 0] = [3; 1; 0; 2] /\ prod_ints [2; -3; 4]%Z = (-24)%Z.
Proof. split; reflexivity. Qed.
