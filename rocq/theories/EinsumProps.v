(** C11-C14: einsum and dirsum. *)
From Coq Require Import Sorted String.
From Verif Require Import Base Alg ArrModel EinsumModel EinsumSpec EinsumThms EinsumParse EinsumApi.
Set Implicit Arguments.
Local Open Scope string_scope. Local Open Scope list_scope. Local Open Scope nat_scope.

(** A concrete contraction "ab,bc->ca" of a 2x3 and a 3x2 integer matrix. *)
Definition ex_a : arr Z_rng := mkarr [2; 3] [1; 2; 3; 4; 5; 6]%Z.
Definition ex_b : arr Z_rng := mkarr [3; 2] [1; 0; 2; 1; 0; 3]%Z.
Definition ex_sub : subscript := mksub (str "ab") [(ch_comma, str "bc")] (Some (str "ca")).
Definition ex_sz (c : nat) : nat := if c =? 98 then 3 else 2.
Lemma ex_letters s : forallb is_letter s = true -> letters s.
Proof. intros H c Hc. rewrite forallb_forall in H. apply H, Hc. Qed.
Lemma ex_sub_wf : well_formed ex_sub.
Proof.
  split; [discriminate|]. split; [apply ex_letters; reflexivity|]. split.
  - intros t [<-|[]]. split; [apply ex_letters; reflexivity|]. split; [discriminate|left; reflexivity].
  - intros o E; injection E as <-. apply ex_letters; reflexivity.
Qed.
Lemma ex_sub_out : output_letters ex_sub (str "ca").
Proof.
  split; [reflexivity|]. split.
  - repeat constructor; cbn; intuition discriminate.
  - intros c. cbn. tauto.
Qed.
Lemma ex_sub_shapes : shapes_agree ex_sz (groups_of ex_sub) [ex_a; ex_b].
Proof. repeat constructor. Qed.

(** For two operands the result is the defining sum, and is the same whichever contraction method
    is configured and whatever the size threshold below which it falls back to numpy. *)
Theorem C11_every_method_is_the_defining_sum :
  forall (K : rng) sz s g outs (a b : arr K) alpha beta out trivial path rest,
  well_formed s -> others s = [(ch_comma, g)] -> output_letters s outs ->
  shapes_agree sz (groups_of s) [a; b] -> buffer_fits K sz outs out ->
  exists r, elementwise K sz (groups_of s) outs (product_term K (groups_of s) [a; b]) alpha beta out r /\
    forall method beta_is_one, (beta_is_one = true -> beta = r1) ->
      einsum K method beta_is_one trivial path (render s) [a; b] alpha beta out rest = Ok r.
Proof. exact einsum_two_total. Qed.
Print Assumptions C11_every_method_is_the_defining_sum.

(** The matrix-product method agrees with the defining sum on every pair of well-formed operands and
    every pattern of letters, including repeated letters, no common letters, and extents equal to zero:
    same result on success, and failure exactly when the other method fails. *)
Theorem C11_matrix_method_agrees : forall (K : rng) min_size beta_is_one ia ib outs (a b : arr K) alpha beta out,
  wf a -> wf b -> (beta_is_one = true -> beta = r1) ->
  (forall o r, out = Some o -> np_einsum K [ia; ib] outs [a; b] = Ok r -> wf o /\ shp o = shp r) ->
  match contract_backend K ia ib outs a b alpha beta out with
  | Ok r => contract_ttgt K min_size beta_is_one ia ib outs a b alpha beta out = Ok r
  | Err _ => exists e, contract_ttgt K min_size beta_is_one ia ib outs a b alpha beta out = Err e
  end.
Proof. exact ttgt_correct. Qed.
Print Assumptions C11_matrix_method_agrees.

Example C11_instance :
  einsum Z_rng (Some 0) false true 0 (render ex_sub) [ex_a; ex_b] 2%Z 0%Z None (Err NameError)
  = Ok (mkarr [2; 2] [10; 28; 22; 46]%Z).
Proof. vm_compute. reflexivity. Qed.
Example C11_instance_hyps : well_formed ex_sub /\ output_letters ex_sub (str "ca") /\
  shapes_agree ex_sz (groups_of ex_sub) [ex_a; ex_b] /\ buffer_fits Z_rng ex_sz (str "ca") None.
Proof. refine (conj ex_sub_wf (conj ex_sub_out (conj ex_sub_shapes _))). intros c E; discriminate. Qed.

(** The output buffer's shape is only checked by the numpy method: with the matrix-product method a
    buffer holding the right number of elements in a different shape is silently accepted. *)
Theorem C11_buffer_shape_unchecked_refuted : exists (a b c : arr Z_rng) e r,
  wf a /\ wf b /\ wf c /\
  contract_backend Z_rng (str "ab") (str "bc") (str "ca") a b 1%Z 1%Z (Some c) = Err e /\
  contract_ttgt Z_rng 0 true (str "ab") (str "bc") (str "ca") a b 1%Z 1%Z (Some c) = Ok r.
Proof.
  exists (mkarr [2; 1] [1; 2]%Z), (mkarr [1; 3] [1; 2; 3]%Z), (mkarr [2; 3] [0; 0; 0; 0; 0; 0]%Z).
  exists BroadcastError, (mkarr [3; 2] [1; 2; 2; 4; 3; 6]%Z). vm_compute. repeat split; reflexivity.
Qed.
Print Assumptions C11_buffer_shape_unchecked_refuted.

(** alpha * einsum + beta * out, for one operand (for two operands it is part of
    [C11_every_method_is_the_defining_sum]). *)
Theorem C12_scaled_accumulation_one_operand :
  forall (K : rng) sz s outs (a : arr K) alpha beta out method beta_is_one trivial path rest,
  well_formed s -> others s = [] -> output_letters s outs ->
  shapes_agree sz (groups_of s) [a] -> buffer_fits K sz outs out ->
  exists r, einsum K method beta_is_one trivial path (render s) [a] alpha beta out rest = Ok r /\
    elementwise K sz (groups_of s) outs (product_term K (groups_of s) [a]) alpha beta out r.
Proof. exact einsum_one. Qed.
Print Assumptions C12_scaled_accumulation_one_operand.

Theorem C12_scaled_accumulation_two_operands :
  forall (K : rng) sz s g outs (a b : arr K) alpha beta out method trivial path rest,
  well_formed s -> others s = [(ch_comma, g)] -> output_letters s outs ->
  shapes_agree sz (groups_of s) [a; b] -> buffer_fits K sz outs out ->
  exists r, einsum K method false trivial path (render s) [a; b] alpha beta out rest = Ok r /\
    elementwise K sz (groups_of s) outs (product_term K (groups_of s) [a; b]) alpha beta out r.
Proof.
  exact (fun K sz s g outs a b alpha beta out method trivial path rest H1 H2 H3 H4 H5 =>
    match @einsum_two_total K sz s g outs a b alpha beta out trivial path rest H1 H2 H3 H4 H5 with
    | ex_intro _ r (conj Hr Hm) => ex_intro _ r (conj (Hm method false (fun E => False_ind _ (Bool.diff_false_true E))) Hr)
    end).
Qed.
Print Assumptions C12_scaled_accumulation_two_operands.

(** Three or more operands with a scale factor are refused ([path] is the length of numpy's
    contraction path, which is never empty for several operands). *)
Theorem C12_scaling_refused_for_many_operands :
  forall (K : rng) s outs (ops : list (arr K)) alpha beta out method beta_is_one path rest,
  well_formed s -> length ops = S (length (others s)) -> output_letters s outs -> 3 <= length ops -> path <> 0 ->
  einsum K method beta_is_one false path (render s) ops alpha beta out rest = Err NotImplementedError.
Proof. exact einsum_many. Qed.
Print Assumptions C12_scaling_refused_for_many_operands.

Example C12_instance :
  einsum Z_rng None false false 0 (render ex_sub) [ex_a; ex_b] 2%Z (-1)%Z (Some (mkarr [2; 2] [1; 2; 3; 4]%Z)) (Err NameError)
  = Ok (mkarr [2; 2] [9; 26; 19; 42]%Z).
Proof. vm_compute. reflexivity. Qed.

(** Output letters: those given, or those occurring exactly once, in increasing order. *)
Theorem C13_output_letters : forall (K : rng) s (ops : list (arr K)) outs,
  well_formed s -> length ops = S (length (others s)) -> output_letters s outs ->
  exists inp, parse_einsum K (render s) ops = Ok (inp, outs, signed_ops K s ops) /\ split_comma inp = groups_of s.
Proof. exact parse_render. Qed.
Print Assumptions C13_output_letters.

(** An explicit output with a repeated letter, or a letter absent from the inputs, is refused. *)
Theorem C13_invalid_output_refused : forall (K : rng) s (ops : list (arr K)) o,
  well_formed s -> length ops = S (length (others s)) ->
  output s = Some o -> ~ (NoDup o /\ incl o (concat (groups_of s))) ->
  parse_einsum K (render s) ops = Err ValueError.
Proof. exact parse_refuses. Qed.
Print Assumptions C13_invalid_output_refused.

(** Whatever the string, an accepted output has distinct characters taken from the input part. *)
Theorem C13_accepted_output_valid : forall (K : rng) sub (ops : list (arr K)) inp outs args,
  parse_einsum K sub ops = Ok (inp, outs, args) -> NoDup outs /\ incl outs inp.
Proof. exact parse_output_valid. Qed.
Print Assumptions C13_accepted_output_valid.

Example C13_instance : output_letters (mksub (str "bac") [(ch_comma, str "ad")] None) (str "bcd") /\
  parse_einsum Z_rng (str "bac,ad") [ex_a; ex_b] = Ok (str "bac,ad", str "bcd", [ex_a; ex_b]).
Proof.
  split; [|vm_compute; reflexivity]. split; [repeat constructor|].
  intros c. cbn [concat groups_of first others map snd app].
  change (count (str "bac" ++ str "ad" ++ []) c) with (count [98; 97; 99; 97; 100] c). unfold count. cbn [count_occ].
  repeat match goal with |- context [Nat.eq_dec ?x c] => destruct (Nat.eq_dec x c) end; subst; cbn; intuition (try discriminate; try lia).
Qed.

(** dirsum: each output element is the signed sum of the operands' elements at the index values
    the letters name, summed over letters absent from the output. *)
Theorem C14_direct_sum : forall (K : rng) sz s outs (ops : list (arr K)),
  well_formed s -> length ops = S (length (others s)) -> output_letters s outs ->
  shapes_agree sz (groups_of s) ops ->
  exists r, dirsum K (render s) ops = Ok r /\
    elementwise K sz (groups_of s) outs (signed_sum_term K s ops) r1 r0 None r.
Proof. exact dirsum_total. Qed.
Print Assumptions C14_direct_sum.

Example C14_instance : dirsum Z_rng (render (mksub (str "i") [(ch_minus, str "a"); (ch_plus, str "j")] (Some (str "aji"))))
    [mkarr [2] [1; 2]%Z; mkarr [1] [10]%Z; mkarr [2] [100; 200]%Z] = Ok (mkarr [1; 2; 2] [91; 92; 191; 192]%Z).
Proof. vm_compute. reflexivity. Qed.

(** A sign in front of the first operand is accepted by the parser but then rejected, because it is
    turned into a comma and leaves an empty group of letters. *)
Theorem C14_leading_sign_refuted : exists (a b : arr Z_rng), wf a /\ wf b /\
  dirsum Z_rng (str "-a+b") [a; b] = Err ValueError.
Proof. exists (mkarr [1] [1%Z]), (mkarr [1] [2%Z]). vm_compute. repeat split; reflexivity. Qed.
Print Assumptions C14_leading_sign_refuted.
