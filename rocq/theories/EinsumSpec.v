(** Vocabulary for the einsum properties. *)
From Coq Require Import Sorted.
From Verif Require Import Base Alg ArrModel EinsumModel.
Set Implicit Arguments.

(** A subscript string: a first group of letters, further groups each preceded by a
    separator ("," or a sign), and optionally "->" with the output letters. *)
Record subscript := mksub { first : pystr; others : list (nat * pystr); output : option pystr }.
Definition render (s : subscript) : pystr :=
  first s ++ flat_map (fun t => fst t :: snd t) (others s) ++
  match output s with Some o => ch_minus :: ch_gt :: o | None => [] end.
Definition letters (s : pystr) : Prop := forall c, In c s -> is_letter c = true.
Definition groups_of (s : subscript) : list pystr := first s :: map snd (others s).
Definition well_formed (s : subscript) : Prop :=
  first s <> [] /\ letters (first s) /\
  (forall t, In t (others s) -> letters (snd t) /\ snd t <> [] /\ In (fst t) [ch_comma; ch_plus; ch_minus]) /\
  (forall o, output s = Some o -> letters o).

(** The output letters: as given, or the letters occurring exactly once, in increasing order. *)
Definition output_letters (s : subscript) (o : pystr) : Prop :=
  match output s with
  | Some o' => o = o' /\ NoDup o /\ incl o (concat (groups_of s))
  | None => StronglySorted lt o /\ forall c, In c o <-> count (concat (groups_of s)) c = 1
  end.

(** All operands have the axes their letters name: one extent per letter. *)
Definition shapes_agree {A} (sz : nat -> nat) (inps : list pystr) (args : list (arr A)) : Prop :=
  Forall2 (fun i a => wf a /\ shp a = map sz i) inps args.

(** The letters which are summed over: those of the inputs that are not in the output. *)
Definition summation_letters (inps : list pystr) (out : pystr) (L : list nat) : Prop :=
  NoDup L /\ forall c, In c L <-> In c (concat inps) /\ ~ In c out.

Section Spec.
  Variable K : rng.
  Local Open Scope rng_scope.

  (** Element [o] of [alpha * einsum(...) + beta * out], with the value [v] of the summed letters
      running over their full ranges. [term e] is the summand when letter [c] has value [e c]. *)
  Definition elementwise (sz : nat -> nat) (inps : list pystr) (outs : pystr) (term : (nat -> nat) -> K)
      (alpha beta : K) (out : option (arr K)) (r : arr K) : Prop :=
    wf r /\ shp r = map sz outs /\
    forall L, summation_letters inps outs L ->
    forall o, inb (map sz outs) o ->
      aget 0 r o = alpha * rsum (map (fun v => term (env_of (outs ++ L) (o ++ v))) (all_idx (map sz L)))
                   + match out with None => 0 | Some c => beta * aget 0 c o end.

  (** Product of the operands' elements. *)
  Definition product_term (inps : list pystr) (args : list (arr K)) (e : nat -> nat) : K :=
    rprod (map (fun p => aget 0 (snd p) (map e (fst p))) (combine inps args)).
  (** Signed sum of the operands' elements; "-" negates the group it precedes. *)
  Definition signed_sum_term (s : subscript) (args : list (arr K)) (e : nat -> nat) : K :=
    rsum (map (fun p => let v := aget 0 (snd p) (map e (snd (fst p))) in
                        if (fst (fst p) =? ch_minus)%nat then - v else v)
              (combine ((ch_plus, first s) :: others s) args)).

  Definition buffer_fits (sz : nat -> nat) (outs : pystr) (out : option (arr K)) : Prop :=
    forall c, out = Some c -> wf c /\ shp c = map sz outs.
End Spec.
