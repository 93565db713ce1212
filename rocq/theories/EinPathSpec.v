(** Vocabulary for contractions of many operands. *)
From Coq Require Import Sorted.
From Verif Require Import Base Alg ArrModel EinsumModel EinsumSpec EinPathModel.
Set Implicit Arguments.

(** What numpy's optimiser guarantees of a contraction path: every contraction takes some of the
    remaining operands, names their letters, and keeps the letters still needed (by the output or by an operand which is left);
    the result joins the end of the list.  The last contraction takes everything and yields the output.
    Nothing is said of the order or grouping, which depend on the extents. *)
Inductive valid_path (outs : pystr) : list pystr -> list contraction -> Prop :=
| path_last : forall inps p, pops (c_inds p) inps = Ok (c_inps p, []) -> c_out p = outs ->
    valid_path outs inps [p]
| path_step : forall inps p rest path, pops (c_inds p) inps = Ok (c_inps p, rest) ->
    NoDup (c_out p) ->
    (forall c, In c (c_out p) <-> In c (concat (c_inps p)) /\ (In c outs \/ In c (concat rest))) ->
    valid_path outs (rest ++ [c_out p]) path -> path <> [] ->
    valid_path outs inps (p :: path).

(** The letter which stands for an integer in a subscript given as lists of integers. *)
Definition letter_of (i : nat) : nat := if i <? 26 then 97 + i else 65 + (i - 26).
Definition small (l : list nat) : Prop := forall i, In i l -> i < 52.
(** The output of a contraction whose labels are integers: as given, or the labels occurring exactly
    once, in increasing order. *)
Definition list_output (subs : list (list nat)) (ol : option (list nat)) (outs : list nat) : Prop :=
  match ol with
  | Some o => outs = o /\ NoDup o /\ incl o (concat subs)
  | None => StronglySorted lt outs /\ (forall c, In c outs <-> count (concat subs) c = 1)
  end.
