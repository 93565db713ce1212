(** Property theorem C60 (ebcc/util/permutations.py:246-268): antisymmetrising chosen axes of an array. *)
From Verif Require Import Base Alg PermModel ArrModel TensorModel TensorSpec AntisymmSpec AntisymmProofs.
From Coq Require Import ZArith Factorial.

(** C60: for distinct axes of equal extent the call succeeds and gives the signed sum over all
    permutations of those axes, entries on other axes staying in place; the result changes sign
    when two of the axes are exchanged, and an array that already does so is multiplied by the
    number of permutations. *)
Theorem C60_antisymmetrise_array : forall (K : rng) (a : arr K) (axes : option (list nat)),
  wf a -> axes_ok a (chosen_axes a axes) ->
  exists r, antisymmetrise_array K a axes = Ok r /\ shp r = shp a /\ wf r /\ antisymmetric_on (chosen_axes a axes) r /\
    (forall idx, inb (shp a) idx -> aget r0 r idx =
       rsum (map (fun ps => rmul (sgn K (snd ps)) (aget r0 a (moved (chosen_axes a axes) (fst ps) idx)))
                 (permutations_with_signs (chosen_axes a axes)))) /\
    (antisymmetric_on (chosen_axes a axes) a ->
       r = mkarr (shp a) (map (fun v => rmul v (rnat (fact (length (chosen_axes a axes))))) (dat a))).
Proof. exact antisymmetrise_sum. Qed.
Print Assumptions C60_antisymmetrise_array.

(** Axes 2 and 0 of a 2x3x2 array: the middle axis is left alone. *)
Example C60_example : let a := mkarr [2; 3; 2] [1; 2; 3; 4; 5; 6; 7; 8; 9; 10; 11; 12]%Z in
  wf a /\ axes_ok a (chosen_axes a (Some [2; 0])) /\
  antisymmetrise_array Z_rng a (Some [2; 0]) = Ok (mkarr [2; 3; 2] [0; -5; 0; -5; 0; -5; 5; 0; 5; 0; 5; 0]%Z) /\
  moved [2; 0] [0; 2] [1; 2; 0] = [0; 2; 1].
Proof.
  cbn zeta. split; [reflexivity|]. split; [|split; vm_compute; reflexivity].
  split; [|split].
  - cbn. repeat constructor; cbn; intuition congruence.
  - cbn. intros k [<-|[<-|[]]]; repeat constructor.
  - cbn. intros i j [<-|[<-|[]]] [<-|[<-|[]]]; reflexivity.
Qed.
