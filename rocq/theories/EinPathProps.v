(** C56: contractions of many operands, and subscripts given as integers. *)
From Coq Require Import Sorted String.
From Verif Require Import Base Alg ArrModel EinsumModel EinsumSpec EinsumThms EinsumParse EinsumApi EinPathModel EinPathSpec EinPathThms EinPathParse.
Set Implicit Arguments.
Local Open Scope string_scope. Local Open Scope list_scope. Local Open Scope nat_scope.

(** For three or more operands the result is the defining sum, the same for every contraction path numpy
    may choose, every contraction method and size threshold. *)
Theorem C56_any_path_is_the_defining_sum : forall (K : rng) sz s outs (ops : list (arr K)),
  well_formed s -> (forall t, In t (others s) -> fst t = ch_comma) ->
  length ops = S (length (others s)) -> 3 <= length ops -> output_letters s outs ->
  shapes_agree sz (groups_of s) ops ->
  exists r, elementwise K sz (groups_of s) outs (product_term K (groups_of s) ops) r1 r0 None r /\
    forall method beta_is_one path out, valid_path outs (groups_of s) path ->
      einsum_str K method beta_is_one true path (render s) ops r1 r0 out = Ok r.
Proof. exact many_operands. Qed.
Print Assumptions C56_any_path_is_the_defining_sum.

(** A scale factor is refused before anything is contracted, whatever the path. *)
Theorem C56_scaling_refused : forall (K : rng) outs inps path, valid_path outs inps path ->
  forall method (args : list (arr K)) res, length args = length inps ->
  run_path K method false path args res = Err NotImplementedError.
Proof. exact scaling_refused. Qed.
Print Assumptions C56_scaling_refused.

(** Labels given as lists of integers 0..51, for any number of operands; without an output list this needs labels below 26. *)
Theorem C56_integer_labels_partial : forall (K : rng) sz subs ol outs (ops : list (arr K)),
  ops <> [] -> small (concat subs) -> (ol = None -> forall i, In i (concat subs) -> i < 26) ->
  list_output subs ol outs -> shapes_agree sz subs ops ->
  exists r, elementwise K sz subs outs (product_term K subs ops) r1 r0 None r /\
    forall method path,
      (3 <= length ops -> valid_path (map letter_of outs) (map (map letter_of) subs) path) ->
      einsum_lists K method false true path subs ol ops r1 r0 None = Ok r.
Proof. exact list_operands. Qed.
Print Assumptions C56_integer_labels_partial.

(** Labels of 52 or more are refused. *)
Theorem C56_large_labels_refused : forall (K : rng) subs ol (ops : list (arr K)) i, In i (concat subs) -> 52 <= i ->
  parse_lists K subs ol ops = Err IndexError.
Proof. exact parse_lists_large. Qed.
Print Assumptions C56_large_labels_refused.

(** Without an output list, labels of 26 and more come before smaller ones: the two axes of a matrix
    labelled 25 and 26 are returned in the opposite order. *)
Theorem C56_implicit_order_refuted : exists (a r : arr Z_rng),
  wf a /\ list_output [[25; 26]] None [25; 26] /\
  einsum_lists Z_rng None false true [] [[25; 26]] None [a] 1%Z 0%Z None = Ok r /\ shp a = [1; 2] /\ shp r = [2; 1].
Proof.
  exists (mkarr [1; 2] [7; 8]%Z), (mkarr [2; 1] [7; 8]%Z).
  split; [reflexivity|]. split; [|vm_compute; repeat split; reflexivity].
  split; [repeat constructor|]. intros c. unfold count. cbn [concat app count_occ].
  repeat match goal with |- context [Nat.eq_dec ?x c] => destruct (Nat.eq_dec x c) end; subst; cbn; intuition (try discriminate; try lia).
Qed.
Print Assumptions C56_implicit_order_refuted.

(** Three matrices, multiplied from the right or from the left, or all at once. *)
Definition ex_abc : subscript := mksub (str "ab") [(ch_comma, str "bc"); (ch_comma, str "cd")] (Some (str "da")).
Definition ex_ops : list (arr Z_rng) := [mkarr [2; 2] [1; 2; 3; 4]%Z; mkarr [2; 2] [0; 1; 1; 1]%Z; mkarr [2; 1] [5; -1]%Z].
Definition ex_right : list contraction :=
  [mkcon [2; 1] [str "cd"; str "bc"] (str "db"); mkcon [1; 0] [str "db"; str "ab"] (str "da")].
Definition ex_left : list contraction :=
  [mkcon [1; 0] [str "bc"; str "ab"] (str "ca"); mkcon [1; 0] [str "ca"; str "cd"] (str "da")].
Definition ex_three (c : nat) : nat := if c =? 100 then 1 else 2.

Lemma ex_three_letters s : forallb is_letter s = true -> letters s.
Proof. intros H c Hc. rewrite forallb_forall in H. apply H, Hc. Qed.
Example C56_instance_hyps : well_formed ex_abc /\ (forall t, In t (others ex_abc) -> fst t = ch_comma) /\
  output_letters ex_abc (str "da") /\ shapes_agree ex_three (groups_of ex_abc) ex_ops.
Proof.
  split; [|split; [|split]].
  - split; [discriminate|]. split; [apply ex_three_letters; reflexivity|]. split.
    + intros t [<-|[<-|[]]]; (split; [apply ex_three_letters; reflexivity|]; split; [discriminate|left; reflexivity]).
    + intros o E; injection E as <-. apply ex_three_letters; reflexivity.
  - intros t [<-|[<-|[]]]; reflexivity.
  - split; [reflexivity|]. split; [repeat constructor; cbn; intuition discriminate|]. intros c. cbn. tauto.
  - repeat constructor.
Qed.
Example C56_right_valid : valid_path (str "da") (groups_of ex_abc) ex_right.
Proof.
  apply path_step with (rest := [str "ab"]); [reflexivity| | |apply path_last; reflexivity|discriminate].
  - repeat constructor; cbn; intuition discriminate.
  - intros c. cbn. lia.
Qed.
Example C56_left_valid : valid_path (str "da") (groups_of ex_abc) ex_left.
Proof.
  apply path_step with (rest := [str "cd"]); [reflexivity| | |apply path_last; reflexivity|discriminate].
  - repeat constructor; cbn; intuition discriminate.
  - intros c. cbn. lia.
Qed.
Example C56_naive_valid : valid_path (str "da") (groups_of ex_abc) [mkcon [0; 0; 0] (groups_of ex_abc) (str "da")].
Proof. exact (naive_path (str "da") (groups_of ex_abc)). Qed.
Example C56_instance : forall path, In path [ex_right; ex_left; [mkcon [0; 0; 0] (groups_of ex_abc) (str "da")]] ->
  einsum_str Z_rng (Some 0) false true path (render ex_abc) ex_ops 1%Z 0%Z None = Ok (mkarr [1; 2] [7; 13]%Z) /\
  einsum_str Z_rng None false true path (render ex_abc) ex_ops 1%Z 0%Z None = Ok (mkarr [1; 2] [7; 13]%Z).
Proof. intros path [<-|[<-|[<-|[]]]]; vm_compute; split; reflexivity. Qed.
Example C56_lists_instance : list_output [[0; 1]; [1; 2]; [2; 3]] (Some [3; 0]) [3; 0] /\
  small (concat [[0; 1]; [1; 2]; [2; 3]]) /\
  einsum_lists Z_rng None false true ex_left [[0; 1]; [1; 2]; [2; 3]] (Some [3; 0]) ex_ops 1%Z 0%Z None = Ok (mkarr [1; 2] [7; 13]%Z).
Proof.
  split; [|split].
  - split; [reflexivity|]. split; [repeat constructor; cbn; intuition discriminate|]. intros c. cbn. tauto.
  - intros i. cbn. lia.
  - vm_compute. reflexivity.
Qed.
