(** The preconditioner (C59). *)
From Coq Require Import List Arith Bool.
From Verif Require Import Base Alg DavModel.
Import ListNotations.
Local Open Scope nat_scope.
Lemma zip2_nth {A B C} (f : A -> B -> C) a : forall b i x y, nth_error a i = Some x -> nth_error b i = Some y -> nth_error (zip2 f a b) i = Some (f x y).
Proof.
  induction a as [|x0 a IH]; intros b i x y Ha Hb; [destruct i; discriminate|]. destruct b as [|y0 b]; [destruct i; discriminate|].
  destruct i as [|i]; cbn in *; [congruence|]. apply IH; assumption.
Qed.
Lemma precondition_safe (F : fld) (ltb : F -> F -> bool) diag tol dx (e : F) i d r : ltb (absv F ltb tol) tol = false ->
  nth_error diag i = Some d -> nth_error dx i = Some r ->
  exists s, nth_error (precondition F ltb diag tol dx e) i = Some (fdiv r s) /\ ltb (absv F ltb s) tol = false /\
    (ltb (absv F ltb (rsub d e)) tol = false -> s = rsub d e).
Proof.
  intros T Hd Hr. exists (if ltb (absv F ltb (rsub d e)) tol then tol else rsub d e). split; [|split].
  - unfold precondition. rewrite (zip2_nth _ dx _ i r _ Hr (map_nth_error _ _ _ Hd)). reflexivity.
  - destruct (ltb (absv F ltb (rsub d e)) tol) eqn:E; [exact T|exact E].
  - intros ->. reflexivity.
Qed.
